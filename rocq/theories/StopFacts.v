(** Lemmas about what makes a plan stop. *)
From Verif Require Import SpecStop RowRead DiffFacts PlanFacts ValidFacts CliFacts CheckFacts FileFacts CrashFacts Samples PropsParse PropsCli PropsFiles PropsOrder PropsCheck PropsTold PropsCrash.

Local Opaque max_statements max_turns.

(** ** Tables that are read hold no rows *)

Definition untracked (t : table) : Prop := t_rows t = None /\ t_tracking t = false.

Lemma untracked_def all t d t' : untracked t -> process_def all t d = Ok t' -> untracked t'.
Proof.
  intros T. assert (C : forall t c t', untracked t -> of_mut (add_column t c PEnd) = Ok t' -> untracked t').
  { intros x c y X. unfold add_column. repeat match goal with |- context [if ?b then _ else _] => destruct b end; cbn; try discriminate; intros [= <-]; exact X. }
  assert (I : forall t i t', untracked t -> of_mut (add_index t i) = Ok t' -> untracked t').
  { intros x i y X. unfold add_index. repeat match goal with |- context [if ?b then _ else _] => destruct b | |- context [match ?b with _ => _ end] => destruct b end; cbn; try discriminate; intros [= <-]; exact X. }
  assert (K : forall t k t', untracked t -> of_mut (add_constraint t k) = Ok t' -> untracked t').
  { intros x i y X. unfold add_constraint. repeat match goal with |- context [if ?b then _ else _] => destruct b | |- context [match ?b with _ => _ end] => destruct b end; cbn; try discriminate; intros [= <-]; exact X. }
  destruct d as [p|i|b k|o]; cbn [process_def].
  - destruct (dmem _ _); [intros [= <-]; exact T|]. intros E. apply bind_ok in E as (c & Ec & E). apply bind_ok in E as (t1 & E1 & E).
    pose proof (C _ _ _ T E1) as T1. destruct (p_primary p); [|injection E as <-; exact T1]. exact (I _ _ _ T1 E).
  - destruct (dmem _ _); [intros [= <-]; exact T|]. apply (I _ _ _ T).
  - cbv zeta. set (k' := if b then _ else _). destruct (dmem _ _); [intros [= <-]; exact T|]. intros E. apply bind_ok in E as (t1 & E1 & E).
    pose proof (K _ _ _ T E1) as T1. destruct (b && _ && _); [|injection E as <-; exact T1]. exact (I _ _ _ T1 E).
  - discriminate.
Qed.
Lemma untracked_create s t u : create_parse s = Ok (Some t, u) -> untracked t.
Proof.
  unfold create_parse. intros E. apply parse_with_run in E as (v & s' & u' & R & E). unfold create_process in E. cbv zeta in E.
  apply bind_ok in E as (t1 & E1 & E).
  assert (T : untracked t1) by (refine (foldM_inv untracked _ _ _ _ _ _ E1); [intros x a y _; apply untracked_def|split; reflexivity]).
  destruct (dmem _ _); injection E as <-; exact T.
Qed.
Lemma untracked_loop n : forall file r data, (forall k t, In (k, t) (rd_tables r) -> untracked t) ->
  forall k t, In (k, t) (rd_tables (fst (read_loop n file r data))) -> untracked t.
Proof.
  induction n as [|n IH]; intros file r data A; cbn [read_loop]; destruct (is_empty data); [exact A..|].
  destruct (is_empty (strip data)); [exact A|].
  destruct (statement_of (strip data)); [apply IH; exact A| | |exact A].
  - destruct (create_parse (strip data)) as [[m rest]|e] eqn:E; [|exact A]. apply IH.
    intros k t I. cbn [put_table rd_tables] in I. apply dset_in in I as [[_ ->]|I]; [|eapply A; eauto]. destruct m as [t'|]; [eapply untracked_create; eauto|split; reflexivity].
  - destruct (insert_parse (strip data)) as [[m rest]|e] eqn:E; [|exact A]. apply IH. exact A.
Qed.
Lemma reader_untracked src n t : In (n, t) (rd_tables (reader_of src)) -> untracked t.
Proof. unfold reader_of. rewrite read_sql_eq. apply untracked_loop. intros k u X. destruct X. Qed.

Local Opaque read_sql.

(** ** The server's definitions *)

Record good_live (d : tables) : Prop := {
  gl_once : NoDup (dkeys d);
  gl_good : forall n t, In (n, t) d -> t_name t = n /\ tidy t /\ untracked t
}.

Lemma put_live_good t b : tidy t -> untracked t -> good_live (db_tables b) -> good_live (db_tables (put_live_table b t)).
Proof.
  intros T U [N G]. unfold put_live_table. set (b1 := if dmem (t_name t) (d_tables b) then add_errors b _ else b). assert (E : d_tables b1 = d_tables b) by (unfold b1; destruct (dmem _ _); reflexivity).
  clearbody b1. assert (X : db_tables (set_tables b1 (dset (t_name t) (Database.fresh t) (d_tables b1))) = dset (t_name t) t (db_tables b)).
  { unfold db_tables, set_tables. cbn [d_tables]. rewrite E. unfold plain_tables. generalize (d_tables b). intros d. induction d as [|[m u] d IH]; [reflexivity|].
    cbn [dset map fst snd]. destruct (keqb (t_name t) m); [reflexivity|]. cbn [map]. rewrite IH. reflexivity. }
  rewrite X. split; [apply nodup_dset, N|]. intros n s I. apply dset_in in I as [[-> ->]|I]; [auto|apply (G n s I)].
Qed.

Definition troubled (s : string) : Prop := white s \/ unclosed ("", s).

Lemma live_one b s : good_live (db_tables b) ->
  (~ troubled s /\ exists b', read_live b s = Ok b' /\ good_live (db_tables b')) \/ (troubled s /\ exists e, read_live b s = Raise e).
Proof.
  intros G. unfold read_live. destruct (read_sql "" s) as [r e] eqn:E. destruct (caught e) as [x|] eqn:C.
  - right. split; [|eauto]. assert (X : snd (read_sql (fst ("", s)) (snd ("", s))) = Raise x).
    { cbn [fst snd]. rewrite E. cbn [snd]. destruct e as [[]|[]]; cbn in C; try discriminate; injection C as <-; reflexivity. }
    destruct (not_readable ("", s) x X) as [(W & _)|(W & _)]; [unfold readable; rewrite X; cbn; destruct e as [[]|[]]; cbn in C; try discriminate; injection C as <-; cbn; discriminate|left; exact W|right; exact W].
  - left. split.
    + assert (R : readable ("", s)) by (unfold readable; cbn [fst snd]; rewrite E; exact C). destruct (readable_not _ R) as [W1 W2]. intros [W|W]; contradiction.
    + eexists. split; [reflexivity|]. assert (T : forall n t, In (n, t) (rd_tables r) -> tidy t /\ untracked t).
      { intros n t I. assert (Er : reader_of ("", s) = r) by (unfold reader_of; cbn [fst snd]; rewrite E; reflexivity). rewrite <- Er in I.
        split; [apply (proj1 (reader_good _) n t I)|apply (reader_untracked _ n t I)]. }
      assert (T' : forall t, In t (dvals (rd_tables r)) -> tidy t /\ untracked t) by (intros t I; apply dvals_in in I as (n & I); eauto).
      clear E T C. revert T' b G. generalize (dvals (rd_tables r)) as l. induction l as [|t l IH]; intros T b G; [exact G|]. cbn [fold_left].
      apply IH; [intros; apply T; right; assumption|]. destruct (T t (or_introl eq_refl)) as [T1 T2]. apply put_live_good; assumption.
Qed.
Lemma live_all_read defs : (~ (exists s, In s defs /\ troubled s) /\ exists live, live_database defs = Ok live /\ good_live (db_tables live))
  \/ ((exists s, In s defs /\ troubled s) /\ exists e, live_database defs = Raise e).
Proof.
  unfold live_database. set (b0 := mkDatabase _ _ _ _ _ _ _ _). assert (G : good_live (db_tables b0)) by (split; [constructor|intros ? ? []]). clearbody b0.
  revert b0 G. induction defs as [|s defs IH]; intros b G; cbn [foldM].
  - left. split; [intros (s & [] & _)|eauto].
  - destruct (live_one b s G) as [(T & b' & E & G')|(T & e & E)]; rewrite E; cbn [bind].
    + destruct (IH b' G') as [(N & H)|((x & I & X) & H)]; [left; split; [|exact H]|right; split; [|exact H]].
      * intros (x & [<-|I] & X); [exact (T X)|apply N; eauto].
      * exists x. split; [right; exact I|exact X].
    + right. split; [exists s; split; [left; reflexivity|exact T]|eauto].
Qed.

(** ** Rows *)

Lemma raw_named t r u x : add_raw_row t r = (u, x) -> t_name u = t_name t /\ t_columns u = t_columns t.
Proof. unfold add_raw_row. destruct (is_empty _); [intros [= <- _]; split; reflexivity|]. destruct (dmem _ _); intros [= <- _]; split; reflexivity. Qed.
Lemma raw_fails t r : (exists e, snd (add_raw_row t r) = Raise e) <-> exists v, dget "id" r = Some v /\ rval_str v = "".
Proof.
  unfold add_raw_row. destruct (is_empty (match dget "id" r with Some v => rval_str v | None => "None" end)) eqn:E.
  - split; [intros _|intros _; eexists; reflexivity]. destruct (dget "id" r) as [v|]; [|discriminate]. exists v. split; [reflexivity|apply is_empty_iff, E].
  - split; [intros (e & X); destruct (dmem _ _) in X; discriminate|]. intros (v & D & V). rewrite D, V in E. discriminate.
Qed.
Lemma raw_rows_cases l : forall t,
  (~ unusable (Ok l) /\ exists t', read_raw_rows t l = (t', None) /\ t_name t' = t_name t /\ t_columns t' = t_columns t /\ t_tracking t' = true /\ exists d, t_rows t' = Some d)
  \/ (unusable (Ok l) /\ exists t' e, read_raw_rows t l = (t', Some e)).
Proof.
  induction l as [|r l IH]; intros t; cbn [read_raw_rows].
  - left. split; [intros (x & v & [] & _)|]. eexists. split; [reflexivity|]. repeat split. eexists. reflexivity.
  - pose proof (raw_fails t r) as F. destruct (add_raw_row t r) as [u x] eqn:E. destruct (raw_named _ _ _ _ E) as [E1 E2]. cbn [snd] in F. destruct x as [y|e].
    + assert (N : ~ exists v, dget "id" r = Some v /\ rval_str v = "") by (intros H; apply F in H as (e & H); discriminate).
      destruct (IH u) as [(U & t' & R & A & B & C)|((x & v & I & D & V) & H)].
      * left. split; [intros (x & v & [<-|I] & D & V); [apply N; eauto|apply U; exists x, v; auto]|]. exists t'. split; [exact R|]. repeat split; try congruence; apply C.
      * right. split; [exists x, v; split; [right; exact I|auto]|exact H].
    + right. split; [|eauto]. destruct (proj1 F (ex_intro _ e eq_refl)) as (v & D & V). exists r, v. split; [left; reflexivity|auto].
Qed.

(** [d'] is [d] with rows. *)
Definition rows_put (d d' : tables) : Prop :=
  dkeys d' = dkeys d /\ forall n t', In (n, t') d' -> exists t, In (n, t) d /\ t_name t' = t_name t /\ t_columns t' = t_columns t.
Definition holds_rows (d : tables) (n : string) : Prop := forall t, dget n d = Some t -> t_tracking t = true /\ exists r, t_rows t = Some r.

Lemma tracked_cases rows files : forall live,
  (~ (exists f, In f files /\ t_tracking f = true /\ In (t_name f) (dkeys live) /\ unusable (rows (t_name f)))
   /\ exists live', read_tracked rows files live = Ok live' /\ rows_put live live' /\ (forall f, In f files -> t_tracking f = true -> holds_rows live' (t_name f))
      /\ forall n, holds_rows live n -> holds_rows live' n)
  \/ ((exists f, In f files /\ t_tracking f = true /\ In (t_name f) (dkeys live) /\ unusable (rows (t_name f)))
      /\ exists e, read_tracked rows files live = Raise e).
Proof.
  induction files as [|f files IH]; intros live; cbn [read_tracked].
  - left. split; [intros (f & [] & _)|]. exists live. split; [reflexivity|]. split; [|split; [intros ? []|auto]]. split; [reflexivity|]. intros n t I. exists t. auto.
  - destruct (t_tracking f) eqn:T; cbn [negb].
    + destruct (dget (t_name f) live) as [t|] eqn:D.
      * assert (J : In (t_name f) (dkeys live)) by (eapply in_dkeys, dget_in, D). destruct (rows (t_name f)) as [l|e] eqn:Rw; cbn [bind].
        -- destruct (raw_rows_cases l t) as [(U & t' & -> & A & B & C1 & C2)|(U & t' & e & ->)].
           ++ assert (K : dkeys (dset (t_name f) t' live) = dkeys live) by (apply dkeys_dset_present, dmem_iff, J).
              assert (H0 : holds_rows (dset (t_name f) t' live) (t_name f)) by (intros x; rewrite dget_dset; simpl; rewrite String.eqb_refl; intros [= <-]; auto).
              assert (HM : forall n, holds_rows live n -> holds_rows (dset (t_name f) t' live) n).
              { intros n H x. rewrite dget_dset. simpl. destruct (String.eqb n (t_name f)); [intros [= <-]; auto|apply H]. }
              destruct (IH (dset (t_name f) t' live)) as [(N & live' & E & [P1 P2] & Q & M)|((g & I & G1 & G2 & G3) & H)].
              ** left. split.
                 { intros (g & [<-|I] & G1 & G2 & G3); [rewrite Rw in G3; contradiction|]. apply N. exists g. rewrite K. auto. }
                 exists live'. split; [exact E|]. split; [|split].
                 --- split; [congruence|]. intros n x I. destruct (P2 n x I) as (y & Iy & Y1 & Y2). apply dset_in in Iy as [[-> ->]|Iy]; [|eauto].
                     exists t. split; [apply dget_in, D|]. split; congruence.
                 --- intros g [<-|I] G; [apply M, H0|apply Q; assumption].
                 --- intros n H. apply M, HM, H.
              ** right. split; [|exact H]. exists g. rewrite K in G2. split; [right; exact I|auto].
           ++ right. split; [|eauto]. exists f. rewrite Rw. split; [left; reflexivity|auto].
        -- right. split; [|eauto]. exists f. rewrite Rw. split; [left; reflexivity|]. split; [exact T|]. split; [exact J|exact Logic.I].
      * destruct (IH live) as [(N & live' & E & P & Q & M)|((g & I & G) & H)].
        -- left. split; [intros (g & [<-|I] & G1 & G2 & G3); [apply dget_none in D; contradiction|apply N; exists g; auto]|]. exists live'. split; [exact E|]. split; [exact P|]. split; [|exact M].
           intros g [<-|I] G; [|apply Q; assumption]. apply M. intros t X. congruence.
        -- right. split; [exists g; split; [right; exact I|exact G]|exact H].
    + destruct (IH live) as [(N & live' & E & P & Q & M)|((g & I & G) & H)].
      * left. split; [intros (g & [<-|I] & G1 & G2 & G3); [congruence|apply N; exists g; auto]|]. exists live'. split; [exact E|]. split; [exact P|]. split; [|exact M].
        intros g [<-|I] G; [congruence|apply Q; assumption].
      * right. split; [exists g; split; [right; exact I|exact G]|exact H].
Qed.

Lemma ckind_eq k : k = KNumeric \/ k <> KNumeric.
Proof. destruct k; auto; right; discriminate. Qed.

(** ** The structure *)

Section Plan.
  Context {FO : FloatOracle}.

  Lemma plan_stops disable from to : NoDup (dkeys from) -> NoDup (dkeys to) ->
    (forall n t, In (n, t) from -> NoDup (dkeys (t_columns t))) -> (forall n t, In (n, t) to -> NoDup (dkeys (t_columns t))) ->
    (exists ops, plan_tables disable to (Some from) = Ok ops) <-> forall n s t, In (n, s) from -> In (n, t) to -> comparable s t.
  Proof.
    intros Nf Nt Cf Ct. unfold plan_tables, differences.
    assert (Cr : mapM (fun n => let* t := dgetE n to in Ok (OCreate t)) (filter (fun k => negb (dmem k from)) (dkeys to)) = Ok (creates_list from to)).
    { rewrite (mapM_keys to (fun k => negb (dmem k from)) (fun n t => Ok (OCreate t)) Nt). apply mapM_Ok_map. reflexivity. }
    rewrite Cr. cbn [bind]. set (names := filter (fun k => dmem k to) (dkeys from)).
    assert (U : forall n s t, dget n from = Some s -> dget n to = Some t -> (exists x, update_table from to n = Ok x) <-> comparable s t).
    { intros n s t Ds Dt. unfold update_table, dgetE. rewrite Ds, Dt. cbn [bind]. unfold diff_split.
      pose proof (fun ops => kitchen_ops_iff s t ops (Cf n s (dget_in _ _ _ Ds)) (Ct n t (dget_in _ _ _ Dt))) as K. split.
      - intros (x & E). apply bind_ok in E as (sp & E & _). apply bind_ok in E as (k & E & _). apply K in E as [C _]. exact C.
      - intros C. rewrite (proj2 (K _) (conj C eq_refl)). cbn [bind]. eauto. }
    assert (M : (exists upd, mapM (update_table from to) names = Ok upd) <-> forall n s t, In (n, s) from -> In (n, t) to -> comparable s t).
    { destruct (mapM (update_table from to) names) as [upd|e] eqn:E.
      - split; [|eauto]. intros _ n s t Is It. apply (dget_iff n s _ Nf) in Is as Ds. apply (dget_iff n t _ Nt) in It as Dt. apply (U n s t Ds Dt).
        apply mapM_ok in E. destruct (Forall2_in_l _ _ _ n E) as (x & _ & X); [|eauto].
        unfold names. apply filter_In. split; [eapply in_dkeys, Is|apply dmem_iff; eapply in_dkeys, It].
      - split; [intros (x & X); discriminate|]. intros H. exfalso.
        destruct (proj1 (mapM_raises (update_table from to) names) (ex_intro _ e E)) as (n & e' & I & X).
        unfold names in I. apply filter_In in I as [I1 I2]. apply dmem_iff in I2.
        destruct (dget n from) as [s|] eqn:Ds; [|apply dget_none in Ds; contradiction]. destruct (dget n to) as [t|] eqn:Dt; [|apply dget_none in Dt; contradiction].
        destruct (proj2 (U n s t Ds Dt) (H n s t (dget_in _ _ _ Ds) (dget_in _ _ _ Dt))) as (x & Y). congruence. }
    rewrite <- M. split.
    - intros (ops & E). apply bind_ok in E as (upd & E & _). eauto.
    - intros (upd & ->). cbn [bind]. eauto.
  Qed.

  (** ** Two columns *)

  Lemma number_of d : (exists f, float_of_default d = Ok f /\ number d f) \/ ((exists e, float_of_default d = Raise e) /\ forall f, ~ number d f).
  Proof.
    destruct d as [|s|z]; cbn [float_of_default number].
    - right. split; [eauto|auto].
    - destruct (float_of_string s) as [f|]; [left; eauto|right; split; [eauto|discriminate]].
    - destruct (float_of_int z) as [f|]; [left; eauto|right; split; [eauto|discriminate]].
  Qed.
  Lemma number_fun d f g : number d f -> number d g -> f = g.
  Proof. destruct d; cbn; [intros []|congruence..]. Qed.
  Lemma numeric_stops a b : c_default a <> DNone -> c_default b <> DNone ->
    (exists e, numeric_same_default a b = Raise e)
    <-> ((c_type a <> "DECIMAL" /\ ((forall f, ~ number (c_default a) f) \/ forall f, ~ number (c_default b) f))
        \/ (c_type a = "DECIMAL" /\ ~ exists s, c_length a = LStr s
              /\ forall p d, split_char ","%char s = [p; d] -> exists n f g, py_int d = Some n
                   /\ number (c_default a) f /\ float_round f n <> None /\ number (c_default b) g /\ float_round g n <> None)).
  Proof.
    intros Na Nb. assert (E : numeric_same_default a b = if negb (String.eqb (c_type a) "DECIMAL") then
          let* x := float_of_default (c_default a) in
          let* y := float_of_default (c_default b) in
          Ok (float_eqb x y)
        else
          match c_length a with
          | LStr s =>
              match split_char ","%char s with
              | [_; d] =>
                  match py_int d with
                  | None => Raise (ValueError "invalid literal for int()")
                  | Some n =>
                      let* x := float_of_default (c_default a) in
                      let* x' := round_f x n in
                      let* y := float_of_default (c_default b) in
                      let* y' := round_f y n in
                      Ok (float_eqb x' y' || default_eqb (c_default a) (c_default b))
                  end
              | _ => Ok (default_eqb (c_default a) (c_default b))
              end
          | _ => Raise (AttributeError "object has no attribute 'split'")
          end).
    { unfold numeric_same_default. destruct (c_default a) as [|x|x]; [contradiction| |]; (destruct (c_default b) as [|y|y]; [contradiction| |]; reflexivity). }
    rewrite E. clear E. destruct (String.eqb_spec (c_type a) "DECIMAL") as [T|T]; cbn [negb].
    - rewrite T. split.
      + intros (e & X). right. split; [reflexivity|]. intros (s & L & H). rewrite L in X.
        destruct (split_char _ s) as [|p [|d [|q l]]]; try discriminate. destruct (H p d eq_refl) as (n & f & g & P & F & Fr & G & Gr). rewrite P in X.
        destruct (number_of (c_default a)) as [(f' & Ef & F')|(_ & F')]; [|exact (F' f F)]. rewrite Ef in X. cbn [bind] in X. rewrite (number_fun _ _ _ F' F) in X.
        unfold round_f in X at 1. destruct (float_round f n) as [f1|]; [|congruence]. cbn [bind] in X.
        destruct (number_of (c_default b)) as [(g' & Eg & G')|(_ & G')]; [|exact (G' g G)]. rewrite Eg in X. cbn [bind] in X. rewrite (number_fun _ _ _ G' G) in X.
        unfold round_f in X. destruct (float_round g n); [discriminate|congruence].
      + intros [[X _]|[_ H]]; [contradiction|]. destruct (c_length a) as [|s|z|l] eqn:L; try (eexists; reflexivity).
        destruct (split_char _ s) as [|p [|d [|q l]]] eqn:Sp.
        1,2,4: exfalso; apply H; exists s; split; [reflexivity|intros p0 d0 X; congruence].
        destruct (py_int d) as [n|] eqn:P; [|eauto].
        destruct (number_of (c_default a)) as [(f & Ef & F)|((e & Ef) & _)]; rewrite Ef; cbn [bind]; [|eauto].
        unfold round_f at 1. destruct (float_round f n) as [f1|] eqn:Rf; cbn [bind]; [|eauto].
        destruct (number_of (c_default b)) as [(g & Eg & G)|((e & Eg) & _)]; rewrite Eg; cbn [bind]; [|eauto].
        unfold round_f. destruct (float_round g n) as [g1|] eqn:Rg; cbn [bind]; [|eauto].
        exfalso. apply H. exists s. split; [reflexivity|]. intros p0 d0 X. rewrite Sp in X. injection X as <- <-. exists n, f, g. repeat split; try assumption; congruence.
    - split.
      + intros (e & X). left. split; [exact T|].
        destruct (number_of (c_default a)) as [(f & Ef & _)|(_ & F)]; [|left; exact F]. rewrite Ef in X. cbn [bind] in X.
        destruct (number_of (c_default b)) as [(g & Eg & _)|(_ & G)]; [|right; exact G]. rewrite Eg in X. discriminate.
      + intros [[_ H]|[X _]]; [|contradiction].
        destruct (number_of (c_default a)) as [(f & Ef & F)|((e & Ef) & _)]; rewrite Ef; cbn [bind]; [|eauto].
        destruct (number_of (c_default b)) as [(g & Eg & G)|((e & Eg) & _)]; rewrite Eg; cbn [bind]; [|eauto].
        exfalso. destruct H as [H|H]; [exact (H f F)|exact (H g G)].
  Qed.

  Lemma changed_stops a b : (exists e, column_changed a b = Raise e) <-> uncomparable a b.
  Proof.
    unfold column_changed, uncomparable. destruct (String.eqb_spec (column_str a) (column_str b)) as [S|S].
    - split; [intros (e & X); discriminate|intros (X & _); contradiction].
    - assert (R : (exists e, (let* r := really_same a b in Ok (negb r)) = Raise e) <-> exists e, really_same a b = Raise e).
      { destruct (really_same a b) as [r0|e0]; cbn [bind]; split; intros (e & X); try discriminate; eauto. }
      assert (NN : forall r, c_kind a <> KNumeric -> really_same a b = Raise r -> False).
      { intros r K. unfold really_same, same_common, same_default. destruct (c_kind a); try congruence;
          repeat match goal with |- context [if ?x then _ else _] => destruct x end; cbn; try discriminate;
          repeat match goal with |- context [if ?x then _ else _] => destruct x end; cbn; discriminate. }
      rewrite R. clear R. destruct (ckind_eq (c_kind a)) as [K|K].
      2: { split; [intros (e & X); exfalso; exact (NN e K X)|intros (_ & X & _); contradiction]. }
      unfold really_same. rewrite K. unfold same_common, same_default, default_none_mismatch. rewrite K. cbn [is_string_kind andb].
      destruct (String.eqb_spec (c_name a) (c_name b)) as [E1|E1]; cbn [negb]; [|split; [intros (e & X); discriminate|intros (_ & _ & X & _); contradiction]].
      assert (L : negb (smem (c_type a) integer_types) && negb (length_eqb (c_length a) (c_length b)) = false <-> In (c_type a) integer_types \/ length_eqb (c_length a) (c_length b) = true).
      { rewrite <- smem_iff. destruct (smem _ _), (length_eqb _ _); cbn; split; auto; try discriminate. intros [X|X]; discriminate. }
      destruct (negb (smem (c_type a) integer_types) && negb (length_eqb (c_length a) (c_length b))).
      { split; [intros (e & X); discriminate|]. intros (_ & _ & _ & _ & _ & _ & X & _). apply L in X. discriminate. }
      apply proj1 in L. specialize (L eq_refl).
      destruct (Bool.eqb (c_null a) (c_null b)) eqn:E2; cbn [negb]; [apply Bool.eqb_prop in E2|split; [intros (e & X); discriminate|intros (_ & _ & _ & _ & X & _); rewrite X, Bool.eqb_reflx in E2; discriminate]].
      destruct (String.eqb_spec (c_type a) (c_type b)) as [E3|E3]; cbn [negb]; [|split; [intros (e & X); discriminate|intros (_ & _ & _ & X & _); contradiction]].
      destruct (Bool.eqb (tru_ob (c_unsigned a)) (tru_ob (c_unsigned b))) eqn:E4; cbn [negb];
        [apply Bool.eqb_prop in E4|split; [intros (e & X); discriminate|intros (_ & _ & _ & _ & _ & X & _); rewrite X, Bool.eqb_reflx in E4; discriminate]].
      assert (Dn : forall d, is_dnone d = true <-> d = DNone) by (intros []; cbn; split; congruence).
      destruct (is_dnone (c_default a)) eqn:Da.
      { split; [|intros (_ & _ & _ & _ & _ & _ & _ & X & _); apply Dn in Da; contradiction]. intros (e & X). destruct (Bool.eqb _ _) eqn:B in X; cbn [negb] in X; [|discriminate].
        apply Bool.eqb_prop in B. symmetry in B. apply Dn in Da. apply Dn in B. unfold numeric_same_default in X. rewrite Da, B in X. discriminate. }
      destruct (is_dnone (c_default b)) eqn:Db; cbn [Bool.eqb negb].
      { split; [intros (e & X); discriminate|]. intros (_ & _ & _ & _ & _ & _ & _ & _ & X & _). apply Dn in Db. contradiction. }
      assert (Na : c_default a <> DNone) by (intros X; rewrite X in Da; discriminate). assert (Nb : c_default b <> DNone) by (intros X; rewrite X in Db; discriminate).
      rewrite (numeric_stops a b Na Nb). split.
      + intros H. repeat (split; [first [assumption|reflexivity]|]). exact H.
      + intros (_ & _ & _ & _ & _ & _ & _ & _ & _ & H). exact H.
  Qed.

  (** ** The rows of the files *)

  Definition managed (t : table) : Prop := keyed (rows_of t) /\ (t_tracking t = true -> t_rows t <> None).
  Lemma managed_new t : untracked t -> managed t.
  Proof. intros [R T]. split; [unfold rows_of; rewrite R; apply keyed_nil|rewrite T; discriminate]. Qed.
  Lemma managed_add t w t' : managed t -> add_rows t w = (t', None) -> managed t'.
  Proof.
    intros [K _] E. assert (A : add_all_rows t [w] = (t', None)) by (unfold add_all_rows; cbn [fold_left then_mut]; unfold then_mut; cbn; exact E).
    destruct (add_all_ok [w] t t' A) as (_ & _ & K' & _ & _ & _ & _ & R). split; [apply K', K|]. intros _. apply R. right. discriminate.
  Qed.

  Definition all_managed (d : dict string tobj) : Prop := forall n o, In (n, o) d -> managed (Database.to_table o).
  (** What asking for errors leaves. *)
  Lemma bares_in d d' n t : bares d' = bares d -> In (n, t) d' -> exists t0, In (n, t0) d /\ bare t = bare t0.
  Proof.
    intros E I. assert (J : In (n, bare t) (bares d')) by (apply in_map_iff; exists (n, t); auto). rewrite E in J.
    apply in_map_iff in J as ([m u] & E' & J). pose proof (f_equal fst E') as E1. pose proof (f_equal snd E') as E2. cbn [fst snd] in E1, E2. subst m. exists u. auto.
  Qed.
  Lemma bare_same t u : bare t = bare u -> t_name t = t_name u /\ t_columns t = t_columns u /\ t_rows t = t_rows u /\ t_tracking t = t_tracking u.
  Proof. unfold bare, with_indexes. destruct t, u. cbn. intros [=]. subst. auto. Qed.

  Lemma managed_bare t u : bare t = bare u -> managed u -> managed t.
  Proof. intros E [K R]. destruct (bare_same _ _ E) as (_ & _ & E1 & E2). unfold managed, rows_of in *. rewrite E1, E2. auto. Qed.
  Lemma managed_errors b : all_managed (d_tables b) -> all_managed (d_tables (fst (db_errors b))).
  Proof.
    intros M n o I. assert (J : In (n, Database.to_table o) (db_tables (fst (db_errors b)))) by (apply in_map_iff; exists (n, o); auto).
    destruct (bares_in _ _ _ _ (errors_bares b) J) as (t0 & J0 & E). apply (managed_bare _ _ E). apply in_map_iff in J0 as ([k u] & [= <- <-] & J0). exact (M k u J0).
  Qed.
  Lemma managed_put b t b' : managed t -> all_managed (d_tables b) -> put_file_table b t = Ok b' -> all_managed (d_tables b').
  Proof.
    intros T M E. unfold put_file_table in E. apply bind_ok in E as (b1 & E1 & [= <-]). assert (M1 : all_managed (d_tables b1)).
    { destruct (dmem _ _); [|injection E1 as <-; exact M]. pose proof (managed_errors b M) as Me. destruct (db_errors b) as [b2 [l|e]]; [|discriminate]. injection E1 as <-. exact Me. }
    cbn [set_tables d_tables]. intros n o I. apply dset_in in I as [[_ ->]|I]; [exact T|apply (M1 n o I)].
  Qed.
  Lemma managed_source b src b' : all_managed (d_tables b) -> read_source b src = Ok b' -> all_managed (d_tables b').
  Proof.
    intros M. unfold read_source. pose proof (fun n t => reader_untracked src n t) as U. unfold reader_of in U. destruct (read_sql (fst src) (snd src)) as [r e]. cbn [fst] in U.
    destruct (caught e); [discriminate|]. intros E. apply bind_ok in E as (b1 & E1 & [= <-]).
    assert (M1 : all_managed (d_tables b1)).
    { refine (foldM_inv (fun b => all_managed (d_tables b)) put_file_table _ _ _ _ M E1). intros x t y I Mx. apply managed_put; [|exact Mx]. apply dvals_in in I as (n & I). eapply managed_new, U, I. }
    assert (P : forall ws b, d_tables (fold_left push_rows ws b) = d_tables b).
    { induction ws as [|w ws IH]; intros x; [reflexivity|]. cbn [fold_left]. rewrite IH. unfold push_rows. repeat match goal with |- context [match ?x with _ => _ end] => destruct x end; reflexivity. }
    rewrite P. exact M1.
  Qed.
  Lemma managed_combine b p b' : all_managed (d_tables b) -> combine_one b p = Ok b' -> all_managed (d_tables b').
  Proof.
    intros M. destruct p as [n ws]. unfold combine_one. destruct (dget n (d_tables b)) as [o|] eqn:Go.
    - intros E. apply bind_ok in E as (o' & Eo & [= <-]). cbn [set_tables d_tables].
      assert (I : managed (Database.to_table o')).
      { refine (foldM_inv (fun x => managed (Database.to_table x)) obj_add_rows ws o o' _ (M n o (dget_in _ _ _ Go)) Eo).
        intros x a y _ I E. unfold obj_add_rows in E. destruct (add_rows (Database.to_table x) a) as [t [e|]] eqn:A; [discriminate|]. injection E as <-. exact (managed_add _ _ _ I A). }
      intros m u J. apply dset_in in J as [[-> ->]|J]; [exact I|apply (M m u J)].
    - destruct ws; [|discriminate]. intros [= <-]. exact M.
  Qed.
  Lemma files_managed srcs b : file_database srcs = Ok b -> forall n t, In (n, t) (db_tables b) -> managed t.
  Proof.
    intros E n t I. unfold file_database in E. apply bind_ok in E as (b1 & E1 & E2).
    assert (M1 : all_managed (d_tables b1)) by (refine (foldM_inv (fun b => all_managed (d_tables b)) read_source _ _ _ _ _ E1); [intros x a y _; apply managed_source|intros ? ? []]).
    assert (M2 : all_managed (d_tables b)) by (unfold Reader.combine in E2; refine (foldM_inv (fun b => all_managed (d_tables b)) combine_one _ _ _ _ M1 E2); intros x a y _; apply managed_combine).
    unfold db_tables, plain_tables in I. apply in_map_iff in I as ([k o] & [= <- <-] & I). exact (M2 k o I).
  Qed.

  (** ** Rows are always planned *)
  Lemma rows_planned to live : NoDup (dkeys to) -> (forall n t, In (n, t) to -> t_name t = n /\ managed t) ->
    (forall n t, In (n, t) to -> t_tracking t = true -> holds_rows live n) -> exists ops, plan_rows to (Some live) = Ok ops.
  Proof.
    intros N M H. unfold plan_rows. destruct (mapM _ _) as [l|e] eqn:E; [cbn; eauto|]. exfalso.
    destruct (proj1 (mapM_raises _ _) (ex_intro _ e E)) as (n & e' & I & X). apply in_map_iff in I as (t & <- & I). apply filter_In in I as [I T]. apply dvals_in in I as (n & I).
    destruct (M n t I) as [En [K Tr]]. rewrite En in X. unfold dgetE in X. rewrite (proj2 (dget_iff _ _ _ N) I) in X. cbn [bind] in X.
    destruct (t_rows t) as [rows|] eqn:R; [|exact (Tr T eq_refl)]. unfold rows_of in K. rewrite R in K.
    destruct (dget n live) as [f|] eqn:D.
    - destruct (H n t I T f D) as (F1 & d & F2). rewrite (to_rows_ok t (Some f) rows d R K) in X; [discriminate|auto].
    - rewrite (to_rows_ok t None rows [] R K) in X; [discriminate|reflexivity].
  Qed.
End Plan.
