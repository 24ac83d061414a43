(** The lemmas behind C94: when no error is reported. *)
From Verif Require Export SpecAccept ValidGlobal PropsValid.

Section Accept.
  Context {FO : FloatOracle}.

  Definition quiet (t : table) : Prop :=
    te_parsing (find_all_errors t) = []
    /\ match te_exn (find_all_errors t) with
       | None => te_schema (find_all_errors t) = []
       | Some (AttributeError _) => True
       | Some _ => False
       end.
  Definition hears (t : table) : Prop :=
    match te_exn (find_all_errors t) with
    | None => te_schema (find_all_errors t) = []
    | Some (AttributeError _) => True
    | Some _ => False
    end.
  Definition asked (o : tobj) : tobj := fst (table_ask o).

  Definition untouched (d : dict string tobj) : Prop := forall n o, In (n, o) d -> to_errs o = None /\ to_seen o = [].
  Lemma ask_untouched d : untouched d ->
    (snd (ask_tables te_schema d) = Ok [] <-> forall n o, In (n, o) d -> hears (to_table o)).
  Proof.
    induction d as [|[n o] d IH]; intros U; cbn [ask_tables]; [split; [intros _ ? ? []|reflexivity]|].
    assert (U' : untouched d) by (intros m u I; apply (U m u); right; exact I). specialize (IH U').
    destruct (U n o (or_introl eq_refl)) as [En Es].
    assert (H : (forall m u, In (m, u) ((n, o) :: d) -> hears (to_table u)) <-> hears (to_table o) /\ forall m u, In (m, u) d -> hears (to_table u)).
    { split; [intros H; split; [apply (H n o); left; reflexivity|intros m u I; apply (H m u); right; exact I]|].
      intros [H1 H2] m u [[= <- <-]|I]; eauto. }
    rewrite H, <- IH. clear H IH.
    unfold table_has, table_ask. rewrite En, Es.
    change (find_all_errors_seen (fun n0 : string => smem n0 []) (to_table o)) with (find_all_errors (to_table o)).
    unfold hears. destruct (te_exn (find_all_errors (to_table o))) as [e|].
    - destruct e; cbn [snd]; try (split; [discriminate|intros [[] _]]). cbn [to_errs].
      destruct (ask_tables te_schema d) as [d2 [l|e]]; cbn [snd rmap app]; [|split; [discriminate|intros [_ ?]; discriminate]]. tauto.
    - cbn [to_errs]. destruct (ask_tables te_schema d) as [d2 [l|e]]; cbn [snd rmap]; [|split; [discriminate|intros [_ ?]; discriminate]].
      split; [intros [= E]; apply app_eq_nil in E as [-> ->]; auto|intros [-> [= ->]]; reflexivity].
  Qed.
  Lemma asked_all pick d l : untouched d -> snd (ask_tables pick d) = Ok l ->
    fst (ask_tables pick d) = map (fun p => (fst p, asked (snd p))) d.
  Proof.
    revert l; induction d as [|[n o] d IH]; intros l U E; cbn [ask_tables] in *; [reflexivity|].
    assert (U' : untouched d) by (intros m u I; apply (U m u); right; exact I).
    cbn [map fst snd]. unfold asked at 1. unfold table_has in *. destruct (table_ask o) as [o' x]. cbn [fst].
    destruct (match x with None => Ok true | Some (AttributeError _) => Ok false | Some x0 => Raise x0 end) as [b|e]; [|discriminate].
    specialize (IH). destruct (ask_tables pick d) as [d2 [r|e]]; cbn [snd rmap fst] in *; [|discriminate].
    rewrite (IH r U' eq_refl). reflexivity.
  Qed.
  Lemma ask_again pick d : untouched d ->
    snd (ask_tables pick (map (fun p => (fst p, asked (snd p))) d)) = Ok (concat (map (fun p => pick (find_all_errors (to_table (snd p)))) d)).
  Proof.
    induction d as [|[n o] d IH]; intros U; [reflexivity|].
    assert (U' : untouched d) by (intros m u I; apply (U m u); right; exact I). specialize (IH U').
    destruct (U n o (or_introl eq_refl)) as [En Es]. cbn [map fst snd ask_tables concat].
    unfold asked at 1, table_has at 1, table_ask at 1 2. rewrite En, Es. cbn [fst snd to_errs].
    destruct (ask_tables pick (map (fun p => (fst p, asked (snd p))) d)) as [d2 r]. cbn [snd] in IH. subst r. reflexivity.
  Qed.

  Lemma concat_nil_iff {A B} (f : A -> list B) l : concat (map f l) = [] <-> forall x, In x l -> f x = [].
  Proof.
    induction l as [|a l IH]; cbn [map concat]; [split; [intros _ ? []|reflexivity]|]. split.
    - intros E. apply app_eq_nil in E as [E1 E2]. intros x [<-|I]; [exact E1|]. apply IH; auto.
    - intros H. rewrite (H a (or_introl eq_refl)). apply IH. intros x I. apply H. right. exact I.
  Qed.

  Lemma errors_iff ts D ge gw : (forall n t, In (n, t) ts -> kept t) ->
    (snd (db_errors (new_database ts (Some D) ge gw)) = Ok [] <->
     ge = [] /\ scan_pure ts (all_fks ts) [] = [] /\ (forall n t, In (n, t) ts -> quiet t)
     /\ row_errors_loop ts (flat_rows D) None = Ok [] /\ (forall n r, In (n, r) (flat_rows D) -> r_perrors r = [])).
  Proof.
    intros K. unfold db_errors, find_schema_errors. cbn [d_schema new_database d_tables d_rows].
    set (d0 := map (fun p => (fst p, fresh (snd p))) ts).
    assert (P0 : plain_tables d0 = ts) by apply (plain_new ts None [] []).
    assert (K0 : all_tables kept d0).
    { intros n o Ho. apply in_map_iff in Ho as ((m, t) & [= <- <-] & Ht). apply (K m t Ht). }
    destruct (database_schema_ok d0 K0) as (E1 & K1 & S1). rewrite P0 in E1.
    destruct (database_schema_errors d0) as [d1 r1]. cbn [fst snd] in E1, K1, S1. subst r1.
    assert (U1 : untouched d1).
    { intros n o Ho. destruct (Forall2_in_r _ _ _ _ S1 Ho) as ([m u] & Hm & _ & (A & B & _)). cbn [snd] in A, B.
      apply in_map_iff in Hm as ((m', t) & [= <- <-] & Ht). cbn [to_errs to_seen fresh] in A, B. auto. }
    assert (F1 : forall (Q : terrs -> Prop), (forall n o, In (n, o) d1 -> Q (find_all_errors (to_table o))) <-> forall n t, In (n, t) ts -> Q (find_all_errors t)).
    { intros Q. split.
      - intros H n t Ht. assert (I : In (n, fresh t) d0) by (apply in_map_iff; exists (n, t); auto).
        destruct (Forall2_in_l _ _ _ _ S1 I) as ([m u] & Hm & _ & (_ & _ & Sb)). cbn [snd to_table fresh] in Sb.
        pose proof (sbi_find (fun _ => false) _ _ Sb) as Ef. fold (find_all_errors t) (find_all_errors (to_table u)) in Ef. rewrite <- Ef. eauto.
      - intros H n o Ho. destruct (Forall2_in_r _ _ _ _ S1 Ho) as ([m u] & Hm & _ & (_ & _ & Sb)). cbn [snd] in Sb.
        apply in_map_iff in Hm as ((m', t) & [= <- <-] & Ht). cbn [to_table fresh] in Sb.
        pose proof (sbi_find (fun _ => false) _ _ Sb) as Ef. fold (find_all_errors t) (find_all_errors (to_table o)) in Ef. rewrite Ef. eauto. }
    pose proof (ask_untouched d1 U1) as A1. pose proof (asked_all te_schema d1) as A2. pose proof (ask_tables_plain te_schema d1) as A3.
    assert (Rw : row_schema_errors (plain_tables d1) (Some D) = row_errors_loop ts (flat_rows D) None).
    { rewrite (sim_rows _ _ _ S1), P0. reflexivity. }
    assert (Q1 : (forall n t, In (n, t) ts -> quiet t) <-> (forall n t, In (n, t) ts -> hears t) /\ forall n t, In (n, t) ts -> te_parsing (find_all_errors t) = []).
    { split; [intros H; split; intros n t I; apply (H n t I)|]. intros [H1 H2] n t I. split; [apply (H2 n t I)|apply (H1 n t I)]. }
    assert (A1' : snd (ask_tables te_schema d1) = Ok [] <-> forall n t, In (n, t) ts -> hears t).
    { rewrite A1. apply (F1 (fun r => match te_exn r with None => te_schema r = [] | Some (AttributeError _) => True | Some _ => False end)). }
    rewrite Q1, <- A1'. clear A1 A1' Q1.
    destruct (ask_tables te_schema d1) as [d2 [l2|e]]; cbn [fst snd] in *.
    2:{ split; [discriminate|]. intros (_ & _ & (X & _) & _). discriminate. }
    rewrite (A2 l2 U1 eq_refl) in *. rewrite A3, Rw.
    destruct (row_errors_loop ts (flat_rows D) None) as [l3|e] eqn:El.
    2:{ split; [discriminate|]. intros (_ & _ & _ & X & _). discriminate. }
    unfold find_parsing_errors. cbn [d_parsing set_schema set_tables d_tables d_rows new_database].
    pose proof (ask_again te_parsing d1 U1) as A4. destruct (ask_tables te_parsing _) as [d3 r3]. cbn [snd] in A4. subst r3.
    cbn [row_parsing snd d_global_errors set_parsing set_tables set_schema d_rows new_database].
    specialize (F1 (fun r => te_parsing r = [])).
    assert (Z : concat (map (fun p : string * tobj => te_parsing (find_all_errors (to_table (snd p)))) d1) = [] <-> forall n t, In (n, t) ts -> te_parsing (find_all_errors t) = []).
    { rewrite concat_nil_iff, <- F1. split; [intros H n o I; apply (H (n, o) I)|intros H [n o] I; apply (H n o I)]. }
    assert (Y : concat (map (fun p : string * rows_def => r_perrors (snd p)) (flat_rows D)) = [] <-> forall n r, In (n, r) (flat_rows D) -> r_perrors r = []).
    { rewrite concat_nil_iff. split; [intros H n o I; apply (H (n, o) I)|intros H [n o] I; apply (H n o I)]. }
    rewrite <- Z, <- Y. split.
    - intros [= E]. apply app_eq_nil in E as [-> E]. apply app_eq_nil in E as [E E']. apply app_eq_nil in E as [-> ->].
      apply app_eq_nil in E' as [-> E']. apply app_eq_nil in E' as [-> ->]. repeat split.
    - intros (-> & -> & ([= ->] & Ez) & [= ->] & Ey). rewrite Ez, Ey. reflexivity.
  Qed.

  Lemma in_flat rows n r : In (n, r) (flat_rows rows) <-> exists ws, In (n, ws) rows /\ In r ws.
  Proof.
    unfold flat_rows. rewrite in_concat. split.
    - intros (l & Hl & I). apply in_map_iff in Hl as ((m, ws) & <- & Hl). apply in_map_iff in I as (r' & [= <- <-] & I). eauto.
    - intros (ws & H & I). exists (map (fun r => (n, r)) ws). split; [apply in_map_iff; exists (n, ws); auto|apply in_map, I].
  Qed.
  Lemma loop_nil ts l : NoDup (dkeys ts) -> (forall n r, In (n, r) l -> listed r) -> forall cur,
    (row_errors_loop ts l cur = Ok [] <->
     forall n r, In (n, r) l -> exists t, In (n, t) ts /\ forall c, In c (r_columns r) -> In c (dkeys (t_columns t))).
  Proof.
    intros N. induction l as [|[n r] l IH]; intros X cur; cbn [row_errors_loop]; [split; [intros _ ? ? []|reflexivity]|].
    assert (X' : forall n r, In (n, r) l -> listed r) by (intros m w I; apply (X m w); right; exact I).
    specialize (IH X'). destruct (dget n ts) as [t|] eqn:G.
    - assert (U : unknown_columns n t r = [] <-> forall c, In c (r_columns r) -> In c (dkeys (t_columns t))).
      { unfold unknown_columns. rewrite concat_nil_iff. split; intros H c I; specialize (H c I); destruct (dmem c (t_columns t)) eqn:M; try discriminate.
        - apply dmem_iff, M.
        - reflexivity.
        - apply dmem_false in M. contradiction. }
      assert (Et : In (n, t) ts) by (apply dget_in, G).
      assert (Un : forall t', In (n, t') ts -> t' = t) by (intros t' I; apply (dget_iff _ _ _ N) in I; congruence).
      destruct (Nat.eqb_spec (r_explicit r) 0) as [E0|E0]; cbn [negb].
      { destruct (X n r (or_introl eq_refl)) as [E1|[E1 E2]]; [contradiction|].
        assert (Z : implicit_errors n cur r = Ok []) by (unfold implicit_errors; rewrite E1; destruct cur; reflexivity). rewrite Z. cbn [bind app].
        destruct (row_errors_loop ts l cur) as [more|e] eqn:El; cbn [bind]; rewrite <- El, (IH cur).
        all: split; intros H; [intros m w [[= <- <-]|I]; [exists t; split; [exact Et|rewrite E2; intros c []]|apply (H m w I)]|intros m w I; apply H; right; exact I]. }
      destruct (row_errors_loop ts l (Some t)) as [more|e] eqn:El; cbn [bind].
      + split.
        * intros [= E]. apply app_eq_nil in E as [E ->]. intros m w [[= <- <-]|I]; [exists t; split; [exact Et|apply U, E]|]. apply (proj1 (IH (Some t)) El m w I).
        * intros H. destruct (H n r (or_introl eq_refl)) as (t' & It & Hc). rewrite (Un t' It) in Hc. rewrite (proj2 U Hc).
          cbn [app]. rewrite <- El. apply IH. intros m w I. apply H. right. exact I.
      + split; [discriminate|]. intros H. exfalso. assert (Z : row_errors_loop ts l (Some t) = Ok []) by (apply IH; intros m w I; apply H; right; exact I). congruence.
    - split.
      + intros E. apply bind_ok in E as (more & _ & [=]).
      + intros H. destruct (H n r (or_introl eq_refl)) as (t' & It & _). apply (dget_iff _ _ _ N) in It. congruence.
  Qed.

  Lemma split_nil {A} (p : A -> bool) l : l = [] <-> filter p l = [] /\ filter (fun x => negb (p x)) l = [].
  Proof.
    split; [intros ->; auto|]. destruct l as [|x l]; [reflexivity|]. cbn [filter]. destruct (p x); cbn [negb]; intros [A1 A2]; discriminate.
  Qed.
  Lemma fks_iff ts : NoDup (dkeys ts) -> (forall n t, In (n, t) ts -> kept t) ->
    (scan_pure ts (all_fks ts) [] = [] <->
     (forall n t kn k, In (n, t) ts -> In (kn, k) (t_constraints t) -> exists ft c fc, fk_satisfied ts t k ft c fc)
     /\ NoDup (concat (map (fun p => map (fun q => k_name (snd q)) (t_constraints (snd p))) ts))).
  Proof.
    intros N K. destruct (C32_database_foreign_keys_exact ts N K) as (l & E & H1).
    destruct (C33_duplicate_names_exact ts K) as (l' & E' & H2). rewrite E in E'. injection E' as <-. cbv zeta in H2.
    destruct (database_schema_ok (fresh_all ts) (fresh_all_kept ts K)) as (E2 & _ & _).
    rewrite fresh_all_plain in E2. rewrite E in E2. injection E2 as <-.
    rewrite (split_nil (String.prefix "Duplicate foreign key:")), H1, (proj2 H2). tauto.
  Qed.

  Lemma parsing_iff t : columns_checked t -> (forall n i, In (n, i) (t_indexes t) -> ix_columns i <> []) ->
    (te_parsing (find_all_errors t) = [] <-> parts_read t).
  Proof.
    intros C X. destruct (find_all_ok t C X) as (_ & _ & ->). rewrite concat_nil_iff. unfold children, parts_read. split.
    - intros H. split; [|split]; intros n x I.
      + specialize (H (column_child (fun _ => false) (primary_column_names t) x)). unfold column_child in H. destruct (column_checked x) as [l e] eqn:Ex.
        cbn [ch_parsing] in H. apply map_nil_iff in H; [exact H|]. apply in_app_iff. left. apply in_map_iff. exists x. split; [rewrite Ex; reflexivity|eapply in_dvals; eauto].
      + specialize (H (index_child x)). cbn [ch_parsing index_child] in H. apply map_nil_iff in H; [exact H|].
        apply in_app_iff. right. apply in_app_iff. left. apply in_map. eapply in_dvals; eauto.
      + specialize (H (constraint_child x)). cbn [ch_parsing constraint_child] in H. apply map_nil_iff in H; [exact H|].
        apply in_app_iff. right. apply in_app_iff. right. apply in_map. eapply in_dvals; eauto.
    - intros (P1 & P2 & P3) c Hc. apply map_nil_iff. revert Hc.
      rewrite !in_app_iff, !in_map_iff. intros [(x & <- & Hx)|[(x & <- & Hx)|(x & <- & Hx)]];
        apply dvals_in in Hx as (n & Hx); simpl; eauto.
      unfold column_child. destruct (column_checked x). simpl. eauto.
  Qed.

  Lemma scan_none tn l : te_exn (scan_children tn l) = None -> forall c, In c l -> ch_exn c = None.
  Proof.
    induction l as [|x l IH]; cbn [scan_children]; [intros _ ? []|]. destruct (ch_exn x) eqn:E; [discriminate|]. intros H c [<-|I]; [exact E|].
    apply IH; [exact H|exact I].
  Qed.

  (** ** Columns that raise *)
  Lemma date_raises c : c_kind c = KDate -> exists e, column_errors c = Raise e.
  Proof.
    intros H. unfold column_errors. destruct (column_checked c) as [l [e|]] eqn:E; [eauto|]. exfalso. unfold column_checked, column_checks in E. rewrite H in E.
    destruct (run_checks_none _ _ E (Fail (AttributeError "'Date' object has no attribute 'values'"))) as (l' & [=]).
    apply in_app_iff. right. unfold date_checks. cbn [In]. tauto.
  Qed.
  Lemma int_no_attr d m : int_of_default d <> Raise (AttributeError m).
  Proof. destruct d as [|x|z]; cbn; [discriminate| |discriminate]. destruct (py_int x); discriminate. Qed.
  Lemma checkable_dec c : checkable c \/ ~ checkable c.
  Proof.
    unfold checkable. destruct (c_kind c); [left; exact I| |left; exact I| |].
    - destruct (string_dec (c_type c) "BIT") as [E|E]; [|left; intros X; contradiction]. destruct (c_default c) as [|x|z].
      + right. intros H. destruct (H E) as [(z & [=])|(x & [=] & _)].
      + destruct (py_int x) as [z|] eqn:P; [left; intros _; right; exists x; split; [reflexivity|]; left; congruence|].
        destruct (float_of_string x) eqn:F; [|left; intros _; right; exists x; auto]. right. intros H.
        destruct (H E) as [(z & [=])|(y & [= <-] & [G|G])]; congruence.
      + left. intros _. left. eauto.
    - destruct (c_autoinc c) as [[|]|]; [right; intros H; apply H; reflexivity|left; discriminate..].
    - destruct (c_autoinc c) as [[|]|]; [right; intros [H _]; apply H; reflexivity| |].
      all: destruct (c_enum_values c) as [l|]; [left; split; discriminate|].
      all: destruct (c_default c) as [|x|z]; [left; split; [discriminate|intros _; auto]| |].
      1, 3: destruct (string_dec x "") as [->|N]; [left; split; [discriminate|intros _; auto]|right; intros [_ H]; destruct (H eq_refl) as [G|[G|G]]; congruence].
      all: destruct (Z.eq_dec z 0) as [->|N]; [left; split; [discriminate|intros _; auto]|right; intros [_ H]; destruct (H eq_refl) as [G|[G|G]]; congruence].
  Qed.
  Lemma attr_iff c : (exists m, column_errors c = Raise (AttributeError m)) <-> c_kind c = KDate /\ c_autoinc c <> Some true.
  Proof.
    split.
    - intros (m & E). assert (X : exists l, run_checks (column_checks c) = (l, Some (AttributeError m))).
      { unfold column_errors, column_checked in E. destruct (run_checks (column_checks c)) as [l [e|]]; [|discriminate]. injection E as ->. eauto. }
      destruct X as (l & X). apply run_checks_some in X. unfold column_checks in X. rewrite in_app_iff in X.
      assert (Nn : ~ exists e, column_errors c = Raise e /\ forall m, e <> AttributeError m).
      { intros (e & E' & N). rewrite E in E'. injection E' as <-. apply (N m). reflexivity. }
      rewrite C37_raising_columns in Nn.
      assert (NS : ~ In (Fail (AttributeError m)) (string_checks c)).
      { unfold string_checks. intros [Y|[Y|[Y|[Y|[Y|[Y|[]]]]]]]; try discriminate.
        revert Y. destruct (tru_os _ || tru_os _); discriminate. }
      destruct X as [[X|[X|[]]]|X]; [discriminate|discriminate|].
      destruct (c_kind c) eqn:Ek; [destruct X| |contradiction| |].
      + exfalso. unfold numeric_checks in X. rewrite in_app_iff in X. destruct X as [X|X].
        * assert (Y : In (Fail (AttributeError m)) [if String.eqb (c_type c) "BIT" then
            match int_of_default (c_default c) with
            | Raise e => Fail e
            | Ok z => err_if (negb (Z.eqb z 0) && negb (Z.eqb z 1))
                        ("Column '" ++ c_name c ++ "' of type 'BIT' must have a default of 1 or 0")
            end
          else Errs []]).
          { destruct (default_dtype (c_default c)); destruct X as [X|X]; try discriminate; try exact X. destruct X. }
          destruct Y as [Y|[]]. destruct (String.eqb (c_type c) "BIT"); [|discriminate].
          destruct (int_of_default (c_default c)) as [z|e] eqn:Ez; [discriminate|]. injection Y as ->. apply (int_no_attr _ _ Ez).
        * destruct X as [X|[X|[X|[X|[X|[]]]]]]; try discriminate.
          revert X. destruct (tru_length _); [|discriminate]. destruct (smem _ no_length); discriminate.
      + split; [reflexivity|]. intros A. apply Nn. unfold checkable. rewrite Ek. intros H. apply (H A).
      + exfalso. apply in_app_iff in X as [X|X]; [contradiction|]. destruct X as [X|[X|[X|[X|[]]]]]; try discriminate.
        * unfold enum_default_check in X. destruct (tru_default (c_default c)); [|discriminate]. destruct (c_enum_values c); discriminate.
        * destruct (tru_ob (c_autoinc c)); discriminate.
    - intros [Hk Ha]. destruct (date_raises c Hk) as (e & E). exists "'Date' object has no attribute 'values'". rewrite E. f_equal.
      unfold column_errors, column_checked in E. destruct (run_checks (column_checks c)) as [l [x|]] eqn:X; [|discriminate]. injection E as ->.
      apply run_checks_some in X. unfold column_checks in X. rewrite Hk, in_app_iff in X. destruct X as [[X|[X|[]]]|X]; [discriminate|discriminate|].
      destruct X as [X|[X|[X|[X|[X|[]]]]]]; try discriminate; [|congruence].
      destruct (tru_ob (c_autoinc c)) eqn:Y; [|discriminate]. apply tru_ob_iff in Y. contradiction.
  Qed.
  Lemma answers_iff c : (exists l, column_errors c = Ok l) <-> checkable c /\ c_kind c <> KDate.
  Proof.
    split.
    - intros (l & E). split; [|intros H; apply date_raises in H as (e & H); congruence].
      destruct (checkable_dec c) as [D|D]; [exact D|]. apply not_checkable_raises in D as (l' & e & D & _). unfold column_errors in E. rewrite D in E. discriminate.
    - intros [C K]. destruct (column_errors c) as [l|e] eqn:E; [eauto|]. exfalso.
      assert (X : snd (column_checked c) = Some e) by (unfold column_errors in E; destruct (column_checked c) as [l [x|]]; [injection E as ->; reflexivity|discriminate]).
      apply (checkable_exn c e C) in X as (m & ->). destruct (proj1 (attr_iff c)) as [H _]; [eauto|]. contradiction.
  Qed.

  Lemma split_at {A} (a b pre : list A) x post : a +++ b = pre +++ x :: post ->
    (exists q, a = pre +++ x :: q /\ post = q +++ b) \/ (exists q, pre = a +++ q /\ b = q +++ x :: post).
  Proof.
    revert pre. induction a as [|y a IH]; intros pre E; [right; exists pre; auto|]. destruct pre as [|p pre]; cbn [app] in E.
    - injection E as -> <-. left. exists a. auto.
    - injection E as -> E. destruct (IH pre E) as [(q & -> & ->)|(q & -> & ->)]; [left; exists q; auto|right; exists q; auto].
  Qed.
  Lemma map_eq_split {A B} (f : A -> B) l : forall p q, map f l = p +++ q -> exists a b, l = a +++ b /\ map f a = p /\ map f b = q.
  Proof.
    induction l as [|x l IH]; intros p q E.
    - destruct p; [|discriminate]. cbn in E. subst. exists [], []. auto.
    - destruct p as [|y p]; cbn [app map] in E.
      + exists [], (x :: l). auto.
      + injection E as <- E. destruct (IH p q E) as (a & b & -> & <- & <-). exists (x :: a), b. auto.
  Qed.
  Lemma first_raise l c e : In c l -> column_errors c = Raise e ->
    exists before d after e', l = before +++ d :: after /\ column_errors d = Raise e' /\ Forall (fun c => exists l, column_errors c = Ok l) before.
  Proof.
    induction l as [|x l IH]; intros I E; [destruct I|]. destruct (column_errors x) as [r|e1] eqn:Ex.
    - destruct I as [->|I]; [congruence|]. destruct (IH I E) as (before & d & after & e' & -> & Ed & F). exists (x :: before), d, after, e'. repeat split; eauto.
    - exists [], x, l, e1. auto.
  Qed.

  Lemma scan_stops tn l e : te_exn (scan_children tn l) = Some e <->
    exists pre x post, l = pre +++ x :: post /\ ch_exn x = Some e /\ Forall (fun c => ch_exn c = None) pre.
  Proof.
    induction l as [|c l IH]; cbn [scan_children]; [split; [discriminate|intros (pre & x & post & E & _); destruct pre; discriminate]|].
    destruct (ch_exn c) as [y|] eqn:Ec.
    - cbn [te_exn]. split.
      + intros [= ->]. exists [], c, l. repeat split; [exact Ec|constructor].
      + intros (pre & x & post & E & Ex & F). destruct pre as [|p pre]; cbn [app] in E; injection E as -> ->; [congruence|]. inversion F; congruence.
    - cbn [te_exn]. rewrite IH. split.
      + intros (pre & x & post & -> & Ex & F). exists (c :: pre), x, post. repeat split; [exact Ex|constructor; assumption].
      + intros (pre & x & post & E & Ex & F). destruct pre as [|p pre]; cbn [app] in E; injection E as -> ->; [congruence|]. inversion F; subst. exists pre, x, post. auto.
  Qed.
  Lemma scan_stopped tn pre x post e : ch_exn x = Some e -> Forall (fun c => ch_exn c = None) pre ->
    te_parsing (scan_children tn (pre +++ x :: post)) = concat (map (fun c => map (in_table tn) (ch_parsing c)) pre).
  Proof.
    intros Ex. induction 1 as [|c pre Hc F IH]; cbn [app scan_children map concat]; [rewrite Ex; reflexivity|]. rewrite Hc. cbn [te_parsing]. rewrite IH. reflexivity.
  Qed.

  Lemma child_exn prim c : ch_exn (column_child (fun _ => false) prim c) = match column_errors c with Ok _ => None | Raise e => Some e end.
  Proof. unfold column_child, column_errors. destruct (column_checked c) as [l [e|]]; reflexivity. Qed.
  Lemma child_parsing prim c : ch_parsing (column_child (fun _ => false) prim c) = c_perrors c.
  Proof. unfold column_child. destruct (column_checked c). reflexivity. Qed.

  (** The first exception comes from a column. *)
  Lemma stops_iff t e : (forall n i, In (n, i) (t_indexes t) -> ix_columns i <> []) ->
    (te_exn (find_all_errors t) = Some e <->
     exists before d after, dvals (t_columns t) = before +++ d :: after /\ column_errors d = Raise e
       /\ Forall (fun c => exists l, column_errors c = Ok l) before).
  Proof.
    intros K. assert (Q : te_exn (find_all_errors t) = Some e <-> te_exn (scan_children (t_name t) (children (fun _ => false) t)) = Some e).
    { unfold find_all_errors, find_all_errors_seen. destruct (te_exn (scan_children (t_name t) (children (fun _ => false) t))) as [x|]; [reflexivity|].
      rewrite run_checks_ok; [split; discriminate|]. intros k [<-|[<-|[<-|[]]]]; try (eexists; reflexivity). apply auto_check_ok, K. }
    rewrite Q, scan_stops. clear Q. unfold children. split.
    - intros (pre & x & post & E & Ex & F). apply split_at in E as [(q & E1 & E2)|(q & E1 & E2)].
      + apply map_eq_split in E1 as (before & rest & E & <- & E'). destruct rest as [|d after]; [discriminate|]. injection E' as <- <-.
        exists before, d, after. split; [exact E|]. rewrite child_exn in Ex. split; [destruct (column_errors d); [discriminate|congruence]|].
        apply Forall_forall. intros c Hc. rewrite Forall_forall in F. specialize (F _ (in_map _ _ _ Hc)). rewrite child_exn in F. destruct (column_errors c); [eauto|discriminate].
      + exfalso. assert (I : In x (map index_child (dvals (t_indexes t)) +++ map constraint_child (dvals (t_constraints t)))) by (rewrite E2; apply in_app_iff; right; left; reflexivity).
        apply in_app_iff in I as [I|I]; apply in_map_iff in I as (y & <- & _); discriminate.
    - intros (before & d & after & E & Ed & F). rewrite E, map_app. cbn [map]. eexists _, _, _. rewrite <- app_assoc. cbn [app]. split; [reflexivity|].
      rewrite child_exn, Ed. split; [reflexivity|]. apply Forall_map. eapply Forall_impl; [|exact F]. intros c (l & El). cbn beta. rewrite child_exn, El. reflexivity.
  Qed.
  Lemma stopped_parsing t before d after e : dvals (t_columns t) = before +++ d :: after -> column_errors d = Raise e ->
    Forall (fun c => exists l, column_errors c = Ok l) before ->
    (te_parsing (find_all_errors t) = [] <-> Forall (fun c => c_perrors c = []) before).
  Proof.
    intros E Ed F.
    assert (Q : te_parsing (find_all_errors t) = te_parsing (scan_children (t_name t) (children (fun _ => false) t))).
    { unfold find_all_errors, find_all_errors_seen. destruct (te_exn (scan_children (t_name t) (children (fun _ => false) t))) as [x|]; [reflexivity|].
      destruct (run_checks _). reflexivity. }
    rewrite Q. clear Q. unfold children. rewrite E, map_app, <- app_assoc. cbn [map app].
    rewrite (scan_stopped _ _ _ _ e); [|rewrite child_exn, Ed; reflexivity|].
    - rewrite concat_nil_iff, Forall_forall. split.
      + intros H c Hc. specialize (H _ (in_map _ _ _ Hc)). apply map_nil_iff in H. rewrite child_parsing in H. exact H.
      + intros H x Hx. apply in_map_iff in Hx as (c & <- & Hc). rewrite child_parsing, (H c Hc). reflexivity.
    - apply Forall_map. eapply Forall_impl; [|exact F]. intros c (l & El). cbn beta. rewrite child_exn, El. reflexivity.
  Qed.

  Lemma quiet_iff t : kept t -> NoDup (dkeys (t_columns t)) -> NoDup (dkeys (t_indexes t)) ->
    (quiet t <-> (table_sound t /\ parts_read t) \/ unseen t).
  Proof.
    intros K N1 N2. assert (X := fun e => stops_iff t e (kept_keys _ K)). unfold quiet, unseen. split.
    - intros [P H]. destruct (te_exn (find_all_errors t)) as [e|] eqn:Ee.
      + right. destruct (proj1 (X e) eq_refl) as (before & d & after & E & Ed & F). exists before, d, after. split; [exact E|].
        destruct e; try contradiction. destruct (proj1 (attr_iff d)) as [D1 D2]; [eauto|]. split; [exact D1|]. split; [exact D2|].
        apply (stopped_parsing t before d after _ E Ed F) in P. rewrite Forall_forall in *. intros c Hc. destruct (proj1 (answers_iff c) (F c Hc)). auto.
      + left. assert (C : columns_checked t).
        { intros n c I. destruct (column_errors c) as [l|e] eqn:Ec; [eauto|]. exfalso.
          destruct (first_raise (dvals (t_columns t)) c e (in_dvals _ _ _ I) Ec) as (before & d & after & e' & E & Ed & F).
          assert (Z : None = Some e') by (apply X; eauto 6). discriminate. }
        destruct (table_errors_iff t K N1 N2 C) as (l & El & Hl). unfold table_errors in El. rewrite Ee, H in El. injection El as <-.
        split; [apply Hl; reflexivity|]. apply (parsing_iff t C (kept_keys _ K)), P.
    - intros [[S P]|(before & d & after & E & D1 & D2 & F)].
      + assert (C : columns_checked t).
        { intros n c I. exists []. apply column_errors_nil. apply (so_column _ S n c I). }
        destruct (table_errors_iff t K N1 N2 C) as (l & El & Hl). unfold table_errors in El.
        split; [apply (parsing_iff t C (kept_keys _ K)), P|]. destruct (te_exn (find_all_errors t)); [discriminate|]. injection El as <-. apply Hl, S.
      + destruct (proj2 (attr_iff d) (conj D1 D2)) as (m & Ed).
        assert (F1 : Forall (fun c => exists l, column_errors c = Ok l) before) by (eapply Forall_impl; [|exact F]; intros c (A & B & _); apply answers_iff; auto).
        split; [apply (stopped_parsing t before d after _ E Ed F1); eapply Forall_impl; [|exact F]; intros c (_ & _ & A); exact A|].
        rewrite (proj2 (X (AttributeError m))) by eauto 6. exact I.
  Qed.

  Lemma accepted_iff ts rows ge gw :
    NoDup (dkeys ts) -> (forall n t, In (n, t) ts -> kept t /\ NoDup (dkeys (t_columns t)) /\ NoDup (dkeys (t_indexes t))) ->
    (forall n ws r, In (n, ws) rows -> In r ws -> listed r) ->
    (snd (db_errors (new_database ts (Some rows) ge gw)) = Ok [] <-> accepted ts rows ge).
  Proof.
    intros N W X. assert (K : forall n t, In (n, t) ts -> kept t) by (intros n t I; apply (W n t I)). rewrite (errors_iff ts rows ge gw K).
    assert (V : forall n r, In (n, r) (flat_rows rows) -> listed r) by (intros m w M; apply in_flat in M as (l & M & M'); apply (X m l w M M')).
    rewrite (fks_iff ts N K), (loop_nil ts (flat_rows rows) N V None). split.
    - intros (G & (F1 & F2) & Q & R & P). constructor; auto.
      + intros n t I. destruct (W n t I) as (A & B & C). apply quiet_iff; eauto.
      + intros n ws r I J. assert (M : In (n, r) (flat_rows rows)) by (apply in_flat; eauto). split; [apply (P n r M)|apply (R n r M)].
    - intros [G T F1 F2 I]. split; [exact G|]. split; [auto|]. split; [|split].
      + intros n t J. destruct (W n t J) as (A & B & C). apply quiet_iff; eauto.
      + intros n r M. apply in_flat in M as (ws & M & J). apply (I n ws r M J).
      + intros n r M. apply in_flat in M as (ws & M & J). apply (I n ws r M J).
  Qed.
End Accept.
