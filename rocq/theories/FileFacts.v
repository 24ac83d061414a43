(** What is read from files is stored in good order: the lemmas behind the file-level forms of C93
    and C94. *)
From Verif Require Export OrderFacts.
From Coq Require Import Permutation.

(** ** Required lists are not empty *)

Lemma delimited_some q sep e s l r : delimited q sep e s = Ok (Some (l, r)) -> l <> [].
Proof. unfold delimited. destruct (delim _ _ _ _ _ _ _ _ _) as [[b vals] rest]. destruct b; [discriminate|]. destruct vals; [discriminate|]. intros [= <- _]. discriminate. Qed.

Section Rules.
  Context {C : Type}.
  Definition nonempty_list (n : string) (v : pvals C) : Prop := exists l, dget n v = Some (VList l) /\ l <> [].

  Lemma run_keeps n : forall (rs : list (rule C)) s vals v u, run_rules rs s vals = Ok (Some v, u) -> (forall r, In r rs -> rule_name r <> n) -> dget n v = dget n vals.
  Proof.
    induction rs as [|r rs IH]; intros s vals v u E H; cbn [run_rules] in E; [injection E as <- _; reflexivity|].
    apply bind_ok in E as ([[x rest]|] & _ & E).
    - assert (Q : dget n (dset (rule_name r) x vals) = dget n vals).
      { rewrite dget_dset. change (keqb n (rule_name r)) with (String.eqb n (rule_name r)). destruct (String.eqb_spec n (rule_name r)) as [->|]; [|reflexivity].
        exfalso. apply (H r); [left; reflexivity|reflexivity]. }
      destruct (is_empty rest).
      + destruct (forallb rule_opt rs); [|discriminate]. injection E as <- _. exact Q.
      + rewrite <- Q. apply (IH _ _ _ _ E). intros r' I. apply H. right. exact I.
    - destruct (rule_opt r); [|discriminate]. apply (IH _ _ _ _ E). intros r' I. apply H. right. exact I.
  Qed.
  Lemma run_requires n sep q (pre post : list (rule C)) : (forall r, In r post -> rule_name r <> n) -> forall s vals v u,
    run_rules (pre +++ RDel n sep q false :: post) s vals = Ok (Some v, u) -> nonempty_list n v.
  Proof.
    intros H. induction pre as [|r pre IH]; intros s vals v u E; cbn [app run_rules] in E.
    - apply bind_ok in E as ([[x rest]|] & Ex & E); [|discriminate].
      assert (N : exists l, x = VList l /\ l <> []).
      { unfold run_rule in Ex. destruct post as [|[]]; try discriminate. apply bind_ok in Ex as ([[l r]|] & Ed & [= <- <-]).
        exists l. split; [reflexivity|]. apply delimited_some in Ed. exact Ed. }
      destruct N as (l & -> & N). exists l. split; [|exact N]. cbn [rule_name] in E. destruct (is_empty rest).
      + destruct (forallb rule_opt post); [|discriminate]. injection E as <- _. rewrite dget_dset, keqb_refl. reflexivity.
      + rewrite (run_keeps n _ _ _ _ _ E H), dget_dset, keqb_refl. reflexivity.
    - apply bind_ok in E as ([[x rest]|] & _ & E).
      + destruct (is_empty rest); [|apply (IH _ _ _ _ E)]. exfalso. rewrite forallb_app in E. cbn [forallb rule_opt] in E. rewrite andb_false_r in E. discriminate.
      + destruct (rule_opt r); [apply (IH _ _ _ _ E)|discriminate].
  Qed.
  Lemma parse_with_run {A} (rs : list (rule C)) (process : pvals C -> res A) s a u :
    parse_with rs process s = Ok (Some a, u) -> exists v s' u', run_rules rs s' [] = Ok (Some v, u') /\ process v = Ok a.
  Proof.
    unfold parse_with. intros E. apply bind_ok in E as ([[v|] rest] & E1 & E); [|discriminate].
    apply bind_ok in E as (x & Ex & [= <- <-]). eauto 6.
  Qed.
  Lemma vlist_nonempty n (v : pvals C) : nonempty_list n v -> vlist n v <> [].
  Proof. intros (l & E & N). unfold vlist. rewrite E. exact N. Qed.

  (** Every child comes from one of the classes. *)
  Lemma best_from (classes : list (pclass C)) : forall s b r, best_child classes s b = Ok r -> forall m u, r = Some (m, u) ->
    b = Some (m, u) \/ exists c, In c classes /\ c s = Ok (Some m, u).
  Proof.
    induction classes as [|c cs IH]; intros s b r E m u ->; cbn [best_child] in E; [injection E as ->; auto|].
    apply bind_ok in E as ([[x|] rest] & Ec & E).
    - destruct (IH _ _ _ E m u eq_refl) as [Q|(c' & I & Q)]; [|right; exists c'; split; [right; exact I|exact Q]].
      assert (Z : Some (x, rest) = Some (m, u) -> b = Some (m, u) \/ exists c0, In c0 (c :: cs) /\ c0 s = Ok (Some m, u)).
      { intros [= -> ->]. right. exists c. split; [left; reflexivity|exact Ec]. }
      destruct b as [[y bl]|]; [|apply Z, Q]. destruct (Nat.ltb _ _); [apply Z, Q|auto].
    - destruct (IH _ _ _ E m u eq_refl) as [Q|(c' & I & Q)]; [auto|]. right. exists c'. split; [right; exact I|exact Q].
  Qed.
  Lemma kids_from (classes : list (pclass C)) n : forall s ms l u, kids n classes s ms = Ok (Some (l, u)) ->
    forall d, In d l -> In d ms \/ exists c s' u', In c classes /\ c s' = Ok (Some d, u').
  Proof.
    induction n as [|n IH]; intros s ms l u E d I; cbn [kids] in E; (destruct (is_empty s); [injection E as <- _; auto|]); [discriminate|].
    apply bind_ok in E as ([[m rest]|] & Eb & E).
    - destruct (IH _ _ _ _ E d I) as [J|J]; [|auto]. apply in_app_or in J as [J|[<-|[]]]; [auto|].
      destruct (best_from _ _ _ _ Eb m rest eq_refl) as [Q|(c & J & Q)]; [discriminate|]. right. eauto 6.
    - destruct ms; [discriminate|]. injection E as <- _. auto.
  Qed.
  Lemma run_kids n classes (P : C -> Prop) : (forall c s d u, In c classes -> c s = Ok (Some d, u) -> P d) ->
    forall (rs : list (rule C)) s vals v u, (forall r, In r rs -> match r with RKids m cs _ => m = n -> cs = classes | _ => True end) ->
    run_rules rs s vals = Ok (Some v, u) -> (forall d, In d (vkids n vals) -> P d) -> forall d, In d (vkids n v) -> P d.
  Proof.
    intros HP. induction rs as [|r rs IH]; intros s vals v u H E Hv; cbn [run_rules] in E; [injection E as <- _; exact Hv|].
    assert (H' : forall r, In r rs -> match r with RKids m cs _ => m = n -> cs = classes | _ => True end) by (intros r' I; apply H; right; exact I).
    apply bind_ok in E as ([[x rest]|] & Ex & E).
    - assert (Q : forall d, In d (vkids n (dset (rule_name r) x vals)) -> P d).
      { intros d. unfold vkids. rewrite dget_dset. change (keqb n (rule_name r)) with (String.eqb n (rule_name r)). destruct (String.eqb_spec n (rule_name r)) as [En|]; [|apply Hv].
        destruct r as [rn lt o|rn re o|rn sp q o|rn cs o]; cbn [run_rule rule_name] in *.
        - injection Ex as Ex. destruct (match_lit _ _); [|discriminate]. injection Ex as <- _. intros [].
        - injection Ex as Ex. destruct (re_match re s) as [[y s']|] eqn:Er; [|discriminate]. injection Ex as <- _. destruct y as [| | |l]; intros I; try contradiction. exfalso. clear -Er.
          unfold re_match in Er. destruct re; repeat match type of Er with context [match ?e with _ => _ end] => destruct e; try discriminate end.
        - destruct rs as [|[] ?]; try discriminate. apply bind_ok in Ex as ([[l r]|] & Ed & [= <- <-]). intros [].
        - apply bind_ok in Ex as ([[l r]|] & Ed & [= <- <-]). intros I. rewrite (H _ (or_introl eq_refl) (eq_sym En)) in Ed.
          destruct (kids_from _ _ _ _ _ _ Ed d I) as [[]|(c & s' & u' & J & Q)]. apply (HP c s' d u' J Q). }
      destruct (is_empty rest).
      + destruct (forallb rule_opt rs); [|discriminate]. injection E as <- _. exact Q.
      + apply (IH _ _ _ _ H' E Q).
    - destruct (rule_opt r); [|discriminate]. apply (IH _ _ _ _ H' E Hv).
  Qed.
End Rules.

(** ** Definitions *)

Definition def_listed (d : def) : Prop := match d with DefIndex i => ix_columns i <> [] | _ => True end.

Lemma child_def {A} (rules : list (rule leaf)) (process : pvals leaf -> A) wrap s d u :
  child_of rules process wrap s = Ok (Some d, u) -> exists v s' u', run_rules rules s' [] = Ok (Some v, u') /\ d = wrap (process v).
Proof. unfold child_of. intros E. apply parse_with_run in E as (v & s' & u' & E & [= <-]). eauto. Qed.
Lemma clean_nonempty l : l <> [] -> clean_index_columns l <> [].
Proof. destruct l; [congruence|discriminate]. Qed.

Lemma class_listed c s d u : In c definition_classes -> c s = Ok (Some d, u) -> def_listed d.
Proof.
  intros I E.
  assert (P : forall rules process, c = child_of rules process DefIndex -> (forall v, ix_columns (process v) = clean_index_columns (vlist "columns" v)) ->
    (exists pre post, rules = pre +++ rcolumns :: post /\ forall r, In r post -> rule_name r <> "columns") -> def_listed d).
  { intros rules process -> Hp (pre & post & -> & H). apply child_def in E as (v & s' & u' & E & ->). cbn [def_listed]. rewrite Hp.
    apply clean_nonempty, vlist_nonempty. exact (run_requires "columns" _ _ pre post H _ _ _ _ E). }
  assert (Q : forall (A : Type) rules (process : pvals leaf -> A) wrap, c = child_of rules process wrap -> (forall a, def_listed (wrap a)) -> def_listed d).
  { intros A rules process wrap -> H. apply child_def in E as (v & s' & u' & _ & ->). apply H. }
  destruct I as [<-|[<-|[<-|I]]].
  - apply (P primary_rules primary_process eq_refl (fun v => eq_refl)). exists [lit "PRIMARY KEY"; lit "("], [lit ")"; rcomma].
    split; [reflexivity|]. intros r [<-|[<-|[]]]; discriminate.
  - apply (P key_rules key_process eq_refl (fun v => eq_refl)). exists [RRe "index_name" (ReAlt "KEY" "INDEX") false; rname; lit "("], [lit ")"; rcomma].
    split; [reflexivity|]. intros r [<-|[<-|[]]]; discriminate.
  - apply (P unique_rules unique_process eq_refl (fun v => eq_refl)). exists [lit "UNIQUE"; RRe "index_name" (ReAlt "KEY" "INDEX") true; RRe "name" (plus not_open) true; lit "("], [lit ")"; rcomma].
    split; [reflexivity|]. intros r [<-|[<-|[]]]; discriminate.
  - repeat (destruct I as [<-|I]; [eapply Q; [reflexivity|intros; exact Logic.I]|]). destruct I.
Qed.

(** ** Tables *)

(** Everything the reader builds. *)
Record tidy (t : table) : Prop := {
  td_cols : NoDup (dkeys (t_columns t));
  td_cols_named : forall n c, In (n, c) (t_columns t) -> c_name c = n;
  td_keys : NoDup (dkeys (t_indexes t));
  td_keys_named : forall n i, In (n, i) (t_indexes t) -> ix_name i = n;
  td_listed : forall n i, In (n, i) (t_indexes t) -> ix_columns i <> [];
  td_fks : NoDup (dkeys (t_constraints t));
  td_fks_named : forall n k, In (n, k) (t_constraints t) -> k_name k = n;
  td_indexed : t_indexed t = None
}.
Lemma tidy_kept t : tidy t -> kept t.
Proof. intros [A1 A2 A3 A4 A5 A6 A7 A8]. constructor; auto. intros s E. congruence. Qed.
Lemma tidy_wf t : tidy t -> List.length (filter is_primary (dvals (t_indexes t))) <= 1 -> wf_table t.
Proof. intros [A1 A2 A3 A4 A5 A6 A7 A8] P. constructor; auto. Qed.
Lemma tidy_same t t' : t_columns t' = t_columns t -> t_indexes t' = t_indexes t -> t_constraints t' = t_constraints t -> t_indexed t' = t_indexed t -> tidy t -> tidy t'.
Proof. intros E1 E2 E3 E4 [A1 A2 A3 A4 A5 A6 A7 A8]. constructor; rewrite ?E1, ?E2, ?E3, ?E4; auto. Qed.

Lemma as_definition_name p c : as_definition p = Ok c -> c_name c = p_name p.
Proof. unfold as_definition. destruct (dget _ type_map); [|discriminate]. intros [= <-]. reflexivity. Qed.
Lemma tidy_column t c t' : tidy t -> of_mut (add_column t c PEnd) = Ok t' -> tidy t'.
Proof.
  intros [A1 A2 A3 A4 A5 A6 A7 A8] E. unfold add_column in E. destruct (dmem _ _) eqn:D; [discriminate|]. injection E as <-.
  constructor; auto; cbn [with_columns t_columns].
  - apply nodup_dset, A1.
  - intros n x I. apply dset_in in I as [[-> ->]|I]; [reflexivity|auto].
Qed.
Lemma tidy_index t i t' : tidy t -> ix_columns i <> [] -> of_mut (add_index t i) = Ok t' -> tidy t'.
Proof.
  intros [A1 A2 A3 A4 A5 A6 A7 A8] N E. unfold add_index in E. destruct (dmem _ _) eqn:D; [discriminate|]. rewrite A8 in E. injection E as <-.
  constructor; auto; cbn [with_indexes t_indexes].
  - apply nodup_dset, A3.
  - intros n x I. apply dset_in in I as [[-> ->]|I]; [reflexivity|auto].
  - intros n x I. apply dset_in in I as [[-> ->]|I]; [exact N|eauto].
Qed.
Lemma tidy_constraint t k t' : tidy t -> of_mut (add_constraint t k) = Ok t' -> tidy t'.
Proof.
  intros [A1 A2 A3 A4 A5 A6 A7 A8] E. unfold add_constraint in E. destruct (dmem _ _) eqn:D; [discriminate|]. injection E as <-.
  constructor; auto; cbn [with_constraints t_constraints].
  - apply nodup_dset, A6.
  - intros n x I. apply dset_in in I as [[-> ->]|I]; [reflexivity|auto].
Qed.
Lemma tidy_def all t d t' : def_listed d -> tidy t -> process_def all t d = Ok t' -> tidy t'.
Proof.
  intros L T. assert (G : forall t m, tidy t -> tidy (add_global_error t m)) by (intros x m; apply tidy_same; reflexivity).
  destruct d as [p|i|b k|o]; cbn [process_def].
  - destruct (dmem _ _); [intros [= <-]; auto|]. intros E. apply bind_ok in E as (c & Ec & E). apply bind_ok in E as (t1 & E1 & E).
    pose proof (tidy_column _ _ _ T E1) as T1. destruct (p_primary p); [|injection E as <-; exact T1]. apply (tidy_index _ _ _ T1) in E; [exact E|discriminate].
  - destruct (dmem _ _); [intros [= <-]; auto|]. apply (tidy_index _ _ _ T L).
  - cbv zeta. set (k' := if b then _ else _). destruct (dmem _ _); [intros [= <-]; auto|]. intros E. apply bind_ok in E as (t1 & E1 & E).
    pose proof (tidy_constraint _ _ _ T E1) as T1. destruct (b && _ && _); [|injection E as <-; exact T1]. apply (tidy_index _ _ _ T1) in E; [exact E|discriminate].
  - discriminate.
Qed.
Lemma tidy_create s t u : create_parse s = Ok (Some t, u) -> tidy t.
Proof.
  unfold create_parse. intros E. apply parse_with_run in E as (v & s' & u' & R & E). unfold create_process in E. cbv zeta in E.
  assert (L : forall d, In d (vkids "definitions" v) -> def_listed d).
  { refine (run_kids "definitions" definition_classes def_listed _ create_rules s' [] v u' _ R _).
    - intros c x d y. apply class_listed.
    - intros r I. repeat (destruct I as [<-|I]; [cbn; first [exact Logic.I|discriminate|intros _; reflexivity]|]). destruct I.
    - intros d H. cbn in H. destruct H. }
  apply bind_ok in E as (t1 & E1 & E).
  assert (T : tidy t1).
  { refine (foldM_inv tidy _ _ _ _ _ _ E1); [|constructor; cbn; try constructor; try (intros ? ? []); reflexivity].
    intros x a y I. apply tidy_def, L, I. }
  destruct (dmem _ _); injection E as <-; [exact T|]. apply (tidy_same t1); [reflexivity..|exact T].
Qed.

(** ** INSERTs *)

Lemma take_groups_none n : take_groups n [] true = ([], [], []).
Proof. reflexivity. Qed.
Lemma insert_listed s w u : insert_parse s = Ok (Some w, u) -> listed w.
Proof.
  unfold insert_parse. intros E. apply parse_with_run in E as (v & s' & u' & R & [= <-]). left.
  unfold insert_process. destruct (take_groups _ _ _) as [[rows errs] warns]. cbn [r_explicit].
  assert (N : vlist "columns" v <> []).
  { apply vlist_nonempty. refine (run_requires "columns" "," bquote [lit "INSERT INTO"; RRe "table" (plus table_char) false; lit "("]
      [lit ")"; lit "VALUES"; RKids "inserts" [values_class] false; RLit "closing_semicolon" ";" true] _ s' [] v u' R).
    intros r I. repeat (destruct I as [<-|I]; [discriminate|]). destruct I. }
  destruct (vlist "columns" v); [congruence|discriminate].
Qed.

(** ** Sources *)

Definition all_tidy (T : tables) : Prop := forall n t, In (n, t) T -> tidy t.
Definition all_listed (D : dict string (list rows_def)) : Prop := forall n ws r, In (n, ws) D -> In r ws -> listed r.

Lemma tidy_no_table : tidy no_table.
Proof. constructor; cbn; try constructor; try (intros ? ? []); reflexivity. Qed.
Lemma listed_push d w : listed w -> all_listed d -> all_listed (dpush (r_table w) w d).
Proof.
  intros L A n ws r I J. unfold dpush in I. apply dset_in in I as [[-> ->]|I]; [|eapply A; eauto].
  apply in_app_or in J as [J|[<-|[]]]; [|exact L]. destruct (dget (r_table w) d) as [l|] eqn:E; [|destruct J]. apply dget_in in E. eapply A; eauto.
Qed.
Lemma good_loop n : forall file r data, all_tidy (rd_tables r) -> all_listed (rd_rows r) ->
  all_tidy (rd_tables (fst (read_loop n file r data))) /\ all_listed (rd_rows (fst (read_loop n file r data))).
Proof.
  induction n as [|n IH]; intros file r data A B; cbn [read_loop]; destruct (is_empty data); [split; assumption..|].
  destruct (is_empty (strip data)); [split; assumption|].
  destruct (statement_of (strip data)); [apply IH; assumption| | |split; assumption].
  - destruct (create_parse (strip data)) as [[m rest]|e] eqn:E; [|split; assumption]. apply IH; [|exact B].
    intros k t I. cbn [put_table rd_tables] in I. apply dset_in in I as [[_ ->]|I]; [|eapply A; eauto]. destruct m as [t'|]; [eapply tidy_create; eauto|exact tidy_no_table].
  - destruct (insert_parse (strip data)) as [[m rest]|e] eqn:E; [|split; assumption]. apply IH; [exact A|]. cbn [put_rows rd_rows].
    apply listed_push; [|exact B]. destruct m as [w|]; [eapply insert_listed; eauto|]. right. split; reflexivity.
Qed.
Lemma reader_good src : all_tidy (rd_tables (reader_of src)) /\ all_listed (rd_rows (reader_of src)).
Proof. apply good_loop; [intros n t []|intros n ws r []]. Qed.

Lemma same_name_of {A} (f : A -> string) (g : A -> A) : (forall a, f (g a) = f a) -> forall l, map f (map g l) = map f l.
Proof. intros H l. rewrite map_map. apply map_ext, H. Qed.

Section Files.
  Local Opaque read_sql.
  Context {FO : FloatOracle}.

  Lemma read_step_any src T D E : NoDup (dkeys (T +++ rd_tables (reader_of src))) -> readable src ->
    read_source (files_db T D E) src
    = Ok (files_db (T +++ rd_tables (reader_of src)) (fold_left pushed (concat (dvals (rd_rows (reader_of src)))) D) (E +++ rd_errors (reader_of src))).
  Proof.
    intros NT R. pose proof (reader_filed src) as F. unfold readable in R.
    assert (A : read_sql (fst src) (snd src) = (reader_of src, snd (read_sql (fst src) (snd src)))) by apply surjective_pairing.
    unfold read_source. rewrite A. revert NT R F. generalize (reader_of src) as r. generalize (snd (read_sql (fst src) (snd src))) as e.
    clear A. intros e r NT R F. rewrite R.
    rewrite put_all; [|apply filed_nodup, F|].
    - cbn [bind]. rewrite (filed_list _ F). f_equal.
      change (add_errors (set_tables (files_db T D E) (d_tables (files_db T D E) +++ map (fun p => (fst p, fresh (snd p))) (rd_tables r))) (rd_errors r))
        with (mkDatabase (map (fun p : string * table => (fst p, fresh (snd p))) T +++ map (fun p => (fst p, fresh (snd p))) (rd_tables r)) (Some D) (E +++ rd_errors r) [] None None None None).
      rewrite <- map_app. change (mkDatabase (map (fun p : string * table => (fst p, fresh (snd p))) (T +++ rd_tables r)) (Some D) (E +++ rd_errors r) [] None None None None)
        with (files_db (T +++ rd_tables r) D (E +++ rd_errors r)). rewrite push_files. reflexivity.
    - intros t I. apply dmem_false. cbn [files_db d_tables]. unfold dkeys in *. rewrite map_map. cbn [fst]. rewrite map_app in NT.
      unfold dvals in I. apply in_map_iff in I as ([n t'] & <- & I). cbn [snd]. destruct F as [_ F]. rewrite (F n t' I). intros J.
      apply (nodup_split (map fst T) (map fst (rd_tables r)) n NT J). apply (in_map fst) in I. exact I.
  Qed.

  Lemma pushed_listed ws : forall D, Forall listed ws -> all_listed D -> all_listed (fold_left pushed ws D).
  Proof. induction ws as [|w ws IH]; intros D F A; [exact A|]. inversion F; subst. cbn [fold_left]. apply IH; [assumption|]. apply listed_push; assumption. Qed.
  Lemma listed_all D : all_listed D -> Forall listed (concat (dvals D)).
  Proof.
    intros A. apply Forall_forall. intros r I. apply in_concat in I as (l & Hl & I). apply dvals_in in Hl as (n & Hl). eapply A; eauto.
  Qed.

  Definition named (T : tables) : Prop := forall n t, In (n, t) T -> t_name t = n.
  Lemma read_any_by (rd : source -> reader) :
    (forall src T D E, NoDup (dkeys (T +++ rd_tables (rd src))) -> readable src ->
       read_source (files_db T D E) src = Ok (files_db (T +++ rd_tables (rd src)) (fold_left pushed (concat (dvals (rd_rows (rd src)))) D) (E +++ rd_errors (rd src)))) ->
    (forall src, all_tidy (rd_tables (rd src)) /\ all_listed (rd_rows (rd src))) -> (forall src, filed (rd src)) ->
    forall srcs T D E b, NoDup (dkeys (T +++ concat (map (fun s => rd_tables (rd s)) srcs))) -> all_tidy T -> named T -> all_listed D ->
    foldM read_source srcs (files_db T D E) = Ok b ->
    exists T' D' E', b = files_db T' D' E' /\ NoDup (dkeys T') /\ all_tidy T' /\ named T' /\ all_listed D'.
  Proof.
    intros St G F. induction srcs as [|s srcs IH]; intros T D E b NT A Na L H; cbn [map concat foldM] in *.
    - rewrite app_nil_r in NT. injection H as <-. exists T, D, E. auto.
    - apply bind_ok in H as (b1 & H1 & H2). rewrite app_assoc in NT.
      assert (N1 : NoDup (dkeys (T +++ rd_tables (rd s)))) by (unfold dkeys in *; rewrite map_app in NT; apply NoDup_app_remove_r' in NT; exact NT).
      rewrite (St s T D E N1 (read_source_readable _ _ _ H1)) in H1. injection H1 as <-. destruct (G s) as [G1 G2]. destruct (F s) as [F1 F2].
      apply IH in H2; [exact H2|exact NT| | |].
      + intros n t I. apply in_app_or in I as [I|I]; eauto.
      + intros n t I. apply in_app_or in I as [I|I]; eauto.
      + apply pushed_listed; [apply listed_all, G2|exact L].
  Qed.
  Lemma read_any srcs T D E b : NoDup (dkeys (T +++ src_tables srcs)) -> all_tidy T -> named T -> all_listed D ->
    foldM read_source srcs (files_db T D E) = Ok b ->
    exists T' D' E', b = files_db T' D' E' /\ NoDup (dkeys T') /\ all_tidy T' /\ named T' /\ all_listed D'.
  Proof. exact (read_any_by reader_of read_step_any reader_good reader_filed srcs T D E b). Qed.

  (** Rows do not change the rest. *)
  Lemma add_rows_tidy t w : tidy t -> tidy (fst (add_rows t w)).
  Proof.
    unfold add_rows. cbv zeta. intros T. destruct (negb _); [apply (tidy_same t); [reflexivity..|exact T]|].
    destruct (add_rows_loop _ _ _ _ _ _) as [[rows ge] e]. apply (tidy_same t); [reflexivity..|exact T].
  Qed.
  Definition good_objects (d : dict string tobj) : Prop :=
    NoDup (dkeys d) /\ forall n o, In (n, o) d -> t_name (Database.to_table o) = n /\ tidy (Database.to_table o).
  Lemma combine_good b p b' : good_objects (d_tables b) -> combine_one b p = Ok b' -> good_objects (d_tables b') /\ d_rows b' = d_rows b.
  Proof.
    intros [N G]. destruct p as [n ws]. unfold combine_one. destruct (dget n (d_tables b)) as [o|] eqn:Go.
    - intros E. apply bind_ok in E as (o' & Eo & [= <-]). split; [|reflexivity]. cbn [set_tables d_tables].
      destruct (G n o (dget_in _ _ _ Go)) as [G1 G2].
      assert (I : t_name (Database.to_table o') = n /\ tidy (Database.to_table o')).
      { refine (foldM_inv (fun x => t_name (Database.to_table x) = n /\ tidy (Database.to_table x)) obj_add_rows ws o o' _ (conj G1 G2) Eo).
        intros x a y _ [I1 I2] E. unfold obj_add_rows in E. pose proof (add_rows_tidy (Database.to_table x) a I2) as T. pose proof (add_rows_same (Database.to_table x) a) as [S _].
        destruct (add_rows (Database.to_table x) a) as [t [e|]]; [discriminate|]. injection E as <-. cbn [Database.to_table fst] in *. split; [congruence|exact T]. }
      split; [apply nodup_dset, N|]. intros m u J. apply dset_in in J as [[-> ->]|J]; [exact I|apply (G m u J)].
    - destruct ws; [|discriminate]. intros [= <-]. split; [split; assumption|reflexivity].
  Qed.
  Lemma file_good srcs b : NoDup (dkeys (src_tables srcs)) -> file_database srcs = Ok b ->
    unasked b /\ NoDup (dkeys (db_tables b)) /\ (forall n t, In (n, t) (db_tables b) -> t_name t = n /\ tidy t)
    /\ exists D, d_rows b = Some D /\ all_listed D.
  Proof.
    intros N E. unfold file_database in E. apply bind_ok in E as (b1 & E1 & E2). change empty_database with (files_db [] [] []) in E1.
    apply (read_any srcs [] [] []) in E1 as (T & D & Er & -> & NT & A & Na & L); [|exact N|intros ? ? []|intros ? ? []|intros ? ? ? []].
    assert (U : unasked (files_db T D Er)).
    { split; [|repeat split]. cbn [files_db d_tables]. intros n o I. apply in_map_iff in I as ([k u] & [= <- <-] & _). reflexivity. }
    assert (G : good_objects (d_tables (files_db T D Er)) /\ d_rows (files_db T D Er) = Some D).
    { split; [|reflexivity]. split; cbn [files_db d_tables].
      - unfold dkeys. rewrite map_map. exact NT.
      - intros n o I. apply in_map_iff in I as ([k u] & [= <- <-] & I). split; [apply (Na k u I)|apply (A k u I)]. }
    pose proof (proj2 (combine_same _ _ E2) U) as U'.
    assert (G' : good_objects (d_tables b) /\ d_rows b = Some D).
    { unfold Reader.combine in E2. refine (foldM_inv (fun x => good_objects (d_tables x) /\ d_rows x = Some D) combine_one _ _ _ _ G E2).
      intros x a y _ [I1 I2] F. apply (combine_good x a y I1) in F as [F1 F2]. split; [exact F1|congruence]. }
    destruct G' as [[G1 G2] G3]. split; [exact U'|]. unfold db_tables, plain_tables. split; [unfold dkeys in *; rewrite map_map; exact G1|].
    split; [|exists D; auto]. intros n t I. apply in_map_iff in I as ([k o] & [= <- <-] & I). apply (G2 k o I).
  Qed.
  Lemma apart_once_by (rd : source -> reader) srcs : (forall a, NoDup (dkeys (rd_tables (rd a)))) ->
    ForallOrdPairs (fun s s' => forall n, In n (dkeys (rd_tables (rd s))) -> ~ In n (dkeys (rd_tables (rd s')))) srcs ->
    NoDup (dkeys (concat (map (fun s => rd_tables (rd s)) srcs))).
  Proof. intros H F. eapply (apart_keys (fun s => rd_tables (rd s))); [exact H| |exact F]. intros a b G. exact G. Qed.
  Lemma apart_once srcs : ForallOrdPairs apart_tables srcs -> NoDup (dkeys (src_tables srcs)).
  Proof. exact (apart_once_by reader_of srcs reader_tables_once). Qed.
End Files.
