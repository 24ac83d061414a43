(** C57: exactly how many groups of values an INSERT can have, and how many definitions a CREATE
    TABLE, and what happens beyond. *)
From Verif Require Import SpecRead RoundInsert PropsInsert RoundCreate Reader Cli Samples PropsParse PropsRound.

Local Opaque max_turns max_statements.

(** 999 groups, or 1000 at the very end of the source. *)
Definition fits (groups : nat) (e : string) : Prop := (N.of_nat groups < 1000)%N \/ ((N.of_nat groups = 1000)%N /\ e = "").

Lemma groups_full sp gp k gs : Forall (group_ok k) gs -> gs <> [] -> forall ms,
  kids (List.length gs) [values_class] (join (sep_text gp) (map (group_text sp) gs)) ms = Ok (Some (ms +++ group_rows gs, "")).
Proof.
  intros F N. induction F as [|g gs (F1 & F2 & F3) F IH]; [contradiction|]. intros ms. destruct gs as [|y gs].
  - cbn [map join List.length]. rewrite <- (sapp_nil_r (group_text sp g)). cbn [kids]. assert (Em : is_empty (group_text sp g ++ "") = false) by reflexivity. rewrite Em. cbn [best_child].
    rewrite (values_last sp g "" "") by (assumption || constructor). reflexivity.
  - change (List.length (g :: y :: gs)) with (S (List.length (y :: gs))). cbn [map]. rewrite join_cons by discriminate. cbn [map] in IH. cbn [kids].
    set (rest := join (sep_text gp) (group_text sp y :: map (group_text sp) gs)) in *.
    assert (Em : is_empty (group_text sp g ++ sep_text gp ++ rest) = false) by reflexivity. rewrite Em. cbn [best_child].
    assert (T : trim rest = true).
    { unfold rest. rewrite <- (sapp_nil_r (join _ _)). apply (groups_neat sp gp k (y :: gs)); [exact F|discriminate|reflexivity]. }
    assert (Rn : rest <> "").
    { unfold rest. destruct gs; [discriminate|]. cbn [map]. rewrite join_cons by discriminate. discriminate. }
    rewrite values_next by assumption. cbn [bind best_child]. rewrite IH by discriminate. rewrite group_rows_cons, <- app_assoc. reflexivity.
Qed.
Lemma groups_over sp gp k e left gs : insert_end e left -> Forall (group_ok k) gs -> gs <> [] -> forall n ms,
  n < List.length gs \/ (n = List.length gs /\ e <> "") ->
  kids n [values_class] (join (sep_text gp) (map (group_text sp) gs) ++ e) ms = Raise (ValueError "Max depth reached").
Proof.
  intros End F N. induction F as [|g gs (F1 & F2 & F3) F IH]; [contradiction|]. intros n ms L.
  assert (Em : is_empty (join (sep_text gp) (map (group_text sp) (g :: gs)) ++ e) = false).
  { destruct gs; [reflexivity|]. cbn [map]. rewrite join_cons by discriminate. reflexivity. }
  destruct n as [|n]; [cbn [kids]; rewrite Em; reflexivity|]. cbn [kids]. rewrite Em. clear Em. destruct gs as [|y gs].
  - cbn [map join best_child]. rewrite (values_last sp g e left) by assumption. cbn [bind best_child]. cbn [List.length] in L.
    destruct L as [L|[L En]]; [lia|]. assert (n = 0) by lia. subst n. cbn [kids]. destruct e; [contradiction|reflexivity].
  - cbn [map best_child]. rewrite join_cons by discriminate. cbn [map] in IH. rewrite !sapp_assoc.
    set (rest := join (sep_text gp) (group_text sp y :: map (group_text sp) gs) ++ e) in *.
    assert (T : trim rest = true).
    { apply (groups_neat sp gp k (y :: gs)); [exact F|discriminate|exact (end_neat _ _ End)]. }
    assert (Rn : rest <> "").
    { unfold rest. apply append_some. destruct gs; [discriminate|]. cbn [map]. rewrite join_cons by discriminate. discriminate. }
    rewrite values_next by assumption. cbn [bind best_child]. apply IH; [discriminate|]. cbn [List.length] in *.
    destruct L as [L|[L En]]; [left; lia|right; split; [lia|exact En]].
Qed.

Section Start.
  Variables (n : string) (cols : list string) (sp gp : bool) (gs : list (list literal)) (e : string).
  Hypothesis Hn : table_name_ok n.
  Hypothesis Hc : cols <> [].
  Hypothesis Fc : Forall column_name_ok cols.
  Hypothesis Hg : gs <> [].
  Hypothesis Fg : Forall (group_ok (List.length cols)) gs.
  Hypothesis He : neat e = true.
  Let tail : string := join (sep_text gp) (map (group_text sp) gs) ++ e.

  (** Everything up to the groups is read. *)
  Lemma insert_start s : normalize s = insert_text n cols sp gp gs e -> exists v,
    vtext "table" v = ticked n /\ vlist "columns" v = cols
    /\ insert_parse s = (let* r := run_rules [RKids "inserts" [values_class] false; RLit "closing_semicolon" ";" true] tail v in
                         match r with (None, u) => Ok (None, u) | (Some v', u) => Ok (Some (insert_process v'), u) end).
  Proof.
    assert (Tt : trim tail = true) by (apply (groups_neat sp gp (List.length cols)); auto).
    assert (Ts : tail <> "").
    { apply append_some. destruct gs as [|g [|y l]]; [contradiction|discriminate|]. cbn [map]. rewrite join_cons by discriminate. discriminate. }
    assert (Vn : neat (") VALUES " ++ tail) = true).
    { apply (neat_cat ") VALUES" (String " " tail)); [reflexivity|]. apply neat_space; [exact Tt|exact Ts]. }
    intros E. unfold insert_parse, parse_with. rewrite E. clear E s. unfold insert_text. fold tail.
    destruct (columns_neat sp cols (") VALUES " ++ tail) Fc Hc Vn) as [CT CN].
    assert (NS : sforall not_space (ticked n) = true) by (apply ticked_not_space, Hn).
    assert (T1 : trim ("(" ++ join (sep_text sp) (map ticked cols) ++ ") VALUES " ++ tail) = true).
    { apply (trim_cat "("); [reflexivity|discriminate|apply trim_neat, CT]. }
    assert (T0 : trim (ticked n ++ " (" ++ join (sep_text sp) (map ticked cols) ++ ") VALUES " ++ tail) = true).
    { apply trim_app; [exact NS|discriminate|]. apply (neat_space ("(" ++ _)); [exact T1|discriminate]. }
    unfold insert_rules, lit.
    rewrite (step_lit _ _ _ _ _ (String " " (ticked n ++ " (" ++ join (sep_text sp) (map ticked cols) ++ ") VALUES " ++ tail))); [|reflexivity|rewrite strip_space by exact T0; discriminate].
    rewrite strip_space by exact T0.
    assert (P : @re_match (list rval * bool) (plus table_char) (ticked n ++ " (" ++ join (sep_text sp) (map ticked cols) ++ ") VALUES " ++ tail)
      = Some (VText (ticked n), " (" ++ join (sep_text sp) (map ticked cols) ++ ") VALUES " ++ tail)).
    { apply plus_word; [|discriminate|reflexivity]. unfold ticked. cbn [sforall]. rewrite sforall_app. change (table_char bquote) with true.
      rewrite (sforall_imp name_ok_char table_char); [reflexivity| |apply Hn]. intros c. clear. destruct c as [[|] [|] [|] [|] [|] [|] [|] [|]]; vm_compute; congruence. }
    pose proof (strip_space _ T1) as U1. change (String " " ("(" ++ join (sep_text sp) (map ticked cols) ++ ") VALUES " ++ tail)) with (" (" ++ join (sep_text sp) (map ticked cols) ++ ") VALUES " ++ tail) in U1.
    rewrite (step_re _ _ _ _ _ _ _ _ P); [|rewrite U1; discriminate].
    rewrite U1.
    rewrite (step_lit _ _ _ _ _ (join (sep_text sp) (map ticked cols) ++ ") VALUES " ++ tail)); [|reflexivity|rewrite trim_strip by exact CT; apply append_some, CN].
    rewrite trim_strip by exact CT.
    rewrite (step_del _ _ _ _ _ _ _ _ _ cols (String ")" (" VALUES " ++ tail))); [|apply columns_delimited; assumption|discriminate].
    assert (T2 : trim ("VALUES " ++ tail) = true).
    { apply (trim_cat "VALUES" (String " " tail)); [reflexivity|discriminate|]. apply neat_space; [exact Tt|exact Ts]. }
    pose proof (strip_space _ T2) as U2. change (String " " ("VALUES " ++ tail)) with (" VALUES " ++ tail) in U2.
    rewrite (step_lit _ _ _ _ _ (" VALUES " ++ tail)); [|reflexivity|rewrite U2; discriminate].
    rewrite U2.
    rewrite (step_lit _ _ _ _ _ (String " " tail)); [|reflexivity|rewrite strip_space by exact Tt; exact Ts].
    rewrite strip_space by exact Tt.

    eexists. split; [|split]; [| |reflexivity]; reflexivity.
  Qed.
End Start.
Section Insert.
  Variables (n : string) (cols : list string) (sp gp : bool) (gs : list (list literal)) (e left : string).
  Hypothesis Hn : table_name_ok n.
  Hypothesis Hc : cols <> [].
  Hypothesis Fc : Forall column_name_ok cols.
  Hypothesis Hg : gs <> [].
  Hypothesis Fg : Forall (group_ok (List.length cols)) gs.
  Hypothesis He : insert_end e left.
  Let tail : string := join (sep_text gp) (map (group_text sp) gs) ++ e.
  Lemma insert_over s : normalize s = insert_text n cols sp gp gs e -> ~ fits (List.length gs) e ->
    insert_parse s = Raise (ValueError "Max depth reached").
  Proof.
    intros E Z. destruct (insert_start n cols sp gp gs e Hn Hc Fc Hg Fg (end_neat _ _ He) s E) as (v & _ & _ & ->). cbn [run_rules run_rule]. unfold tail.
    rewrite (groups_over sp gp (List.length cols) e left gs He Fg Hg); [reflexivity|].
    assert (M : N.of_nat max_turns = 1000%N) by (apply (N2Nat.id 1000)). unfold fits in Z.
    assert (L : (1000 <= N.of_nat (List.length gs))%N) by lia.
    destruct (N.eq_dec (N.of_nat (List.length gs)) 1000) as [Q|Q]; [right|left; lia]. split; [lia|]. intros ->. apply Z. right. auto.
  Qed.
  Lemma insert_at s : normalize s = insert_text n cols sp gp gs e -> (N.of_nat (List.length gs) = 1000)%N -> e = "" ->
    insert_parse s = Ok (Some (mkRows n (map (map lit_value) gs) cols (List.length cols) [] []), "").
  Proof.
    intros E Z En. destruct (insert_start n cols sp gp gs e Hn Hc Fc Hg Fg (end_neat _ _ He) s E) as (v & V1 & V2 & ->). cbn [run_rules run_rule]. unfold tail. rewrite En, sapp_nil_r.
    assert (M : max_turns = List.length gs).
    { assert (M : N.of_nat max_turns = 1000%N) by (apply (N2Nat.id 1000)). lia. }
    rewrite M, (groups_full sp gp (List.length cols) gs Fg Hg). cbn [bind List.app is_empty forallb rule_opt rule_name andb].
    assert (P' : forall w, vkids "inserts" w = group_rows gs -> vtext "table" w = ticked n -> vlist "columns" w = cols ->
      insert_process w = mkRows n (map (map lit_value) gs) cols (List.length cols) [] []).
    { intros w W1 W2 W3. unfold insert_process. rewrite W1, W2, W3. rewrite (groups_taken (List.length cols)); [|exact Fg|destruct cols; [contradiction|discriminate]].
      rewrite strip_ticked by apply Hn. reflexivity. }
    rewrite P'; [reflexivity|..].
    - unfold vkids. rewrite dget_dset. reflexivity.
    - unfold vtext in *. rewrite dget_dset. cbn [keqb]. exact V1.
    - unfold vlist in *. rewrite dget_dset. cbn [keqb]. exact V2.
  Qed.
End Insert.

(** ** Definitions *)

Lemma defs_over gap r ds : ds <> [] -> Forall rdef_ok ds -> neat r = true -> forall n ms, n <= List.length ds ->
  kids n definition_classes (body ds ++ RoundTable.closing gap r) ms = Raise (ValueError "Max depth reached").
Proof.
  intros N F R. induction F as [|d ds D F IH]; [contradiction|]. intros n ms L.
  assert (Z : is_empty (body (d :: ds) ++ RoundTable.closing gap r) = false).
  { destruct (body_trim (d :: ds) gap r N (rdef_shapes _ (Forall_cons _ D F)) R) as [_ T]. destruct (body (d :: ds) ++ RoundTable.closing gap r); [contradiction|reflexivity]. }
  destruct n as [|n]; [cbn [kids]; rewrite Z; reflexivity|]. cbn [kids]. rewrite Z. clear Z. destruct ds as [|d' ds].
  - destruct (rdef_read d (EClose gap r) D R (calm_close gap r)) as (p & B & Sd). unfold body. cbn [map join]. unfold RoundTable.closing. rewrite B. cbn [bind ending_left].
    cbn [List.length] in L. assert (n = 0) by lia. subst n. reflexivity.
  - destruct (body_trim (d' :: ds) gap r ltac:(discriminate) (rdef_shapes _ F) R) as [T1 T2].
    destruct (rdef_read d (EComma (body (d' :: ds) ++ RoundTable.closing gap r)) D) as (p & B & Sd); [split; assumption|apply calm_comma|].
    replace (body (d :: d' :: ds) ++ RoundTable.closing gap r) with (rdef_text d ++ ending_raw (EComma (body (d' :: ds) ++ RoundTable.closing gap r))).
    + rewrite B. cbn [bind ending_left]. apply IH; [discriminate|]. cbn [List.length] in *. lia.
    + cbn [ending_raw ending_text]. unfold body at 2. cbn [map]. rewrite (join_cons _ (rdef_text d)) by discriminate. rewrite !sapp_assoc. reflexivity.
Qed.
Lemma flat_over gap gap' n h ds l z r semi : table_end z r semi -> create_head n h -> ds <> [] -> Forall rdef_ok ds -> Forall plain_option l ->
  (1000 <= N.of_nat (List.length ds))%N -> run_rules create_rules (flat gap gap' h ds l z) [] = Raise (ValueError "Max depth reached").
Proof.
  intros He Hh N F O Ld. destruct (after_strip l z r semi He O) as [An As].
  assert (M : N.of_nat max_turns = 1000%N) by (apply (N2Nat.id 1000)).
  pose proof (defs_over gap' (after_defs l z) ds N F An max_turns [] ltac:(lia)) as K.
  destruct (body_trim ds gap' (after_defs l z) N (rdef_shapes _ F) An) as [B1 B2].
  set (bd := body ds ++ RoundTable.closing gap' (after_defs l z)) in *.
  assert (G1 : neat ((if gap then " " else "") ++ bd) = true) by (destruct gap; [apply (neat_space bd); assumption|apply trim_neat, B1]).
  assert (G2 : strip ((if gap then " " else "") ++ bd) = bd) by (destruct gap; [apply (strip_space bd), B1|apply trim_strip, B1]).
  assert (S1 : trim ("(" ++ (if gap then " " else "") ++ bd) = true) by (apply trim_app; [reflexivity|discriminate|exact G1]).
  unfold create_rules, flat. fold bd.
  match goal with |- context [run_rules (lit "CREATE TABLE" :: RLit "if_not_exists" "IF NOT EXISTS" true :: RRe "name" (plus not_space) false :: ?rs)] => destruct (head_run n h rs _ Hh S1) as (ine & tick & ->) end.
  unfold lit. rewrite (step_lit "(" "(" false _ _ ((if gap then " " else "") ++ bd)); [|reflexivity|rewrite G2; exact B2].
  rewrite G2. cbn [run_rules run_rule]. rewrite K. reflexivity.
Qed.
(** The statement that is rendered for a table. *)
Lemma rendered_over nice t : wf_table t -> clean_name (t_name t) -> Forall readable_column (dvals (t_columns t)) ->
  Forall readable_index (dvals (t_indexes t)) -> Forall readable_fk (dvals (t_constraints t)) -> Forall readable_option (t_options t) ->
  (1000 <= N.of_nat (List.length (t_columns t) + List.length (t_indexes t) + List.length (t_constraints t)))%N ->
  create_parse (create_str nice t) = Raise (ValueError "Max depth reached").
Proof.
  intros W C Fc Fi Fk Fo L.
  set (ds := map (fun c => (column_str c, col_means c_name fine_column c)) (dvals (t_columns t)) +++ map (fun i => (index_str i, index_means fine_index i)) (dvals (t_indexes t))
               +++ map (fun k => (constraint_str k, fk_means fine_fk k)) (dvals (t_constraints t)) : list wdef).
  assert (S1 : map rdef_text ds = defs_of t).
  { unfold ds, defs_of, rdef_text. rewrite !map_app, !map_map. reflexivity. }
  assert (Ld : List.length ds = List.length (t_columns t) + List.length (t_indexes t) + List.length (t_constraints t)).
  { unfold ds, dvals. rewrite !app_length, !map_length. lia. }
  assert (Nd : ds <> []) by (intros Z; rewrite Z in Ld; cbn [List.length] in Ld; lia).
  assert (Fd : Forall rdef_ok ds).
  { unfold ds. rewrite !Forall_app, !Forall_map. split; [|split].
    - eapply Forall_impl; [|exact Fc]. intros c. apply RoundCreate.column_ok.
    - eapply Forall_impl; [|exact Fi]. intros c. apply RoundCreate.index_ok.
    - eapply Forall_impl; [|exact Fk]. intros c. apply RoundCreate.fk_ok. }
  assert (Fs : Forall def_ok ds) by (apply rdef_shapes, Fd).
  assert (Po : Forall plain_option (t_options t)) by (eapply Forall_impl; [|exact Fo]; intros o H; apply H).
  assert (Hh : create_head (t_name t) ("CREATE TABLE " ++ ticked (t_name t))) by (apply (head_as (t_name t) "CREATE TABLE" "" true); [reflexivity|left; reflexivity|exact C]).
  rewrite create_rendered by (rewrite <- S1; destruct ds; [contradiction|discriminate]). rewrite <- S1. unfold create_parse, drop_lengths.
  rewrite no_dd_drop by (eapply rendered_dd; eauto; try exact (stop_end true); try reflexivity; destruct nice; try reflexivity; discriminate).
  erewrite rendered_drop by (eauto; try exact (stop_end true); try reflexivity; destruct nice; try reflexivity; discriminate).
  unfold parse_with. erewrite rendered_flat by (eauto; try exact (stop_end true); try reflexivity; destruct nice; try reflexivity; discriminate).
  erewrite flat_over; [reflexivity|exact (stop_end true)|exact Hh|exact Nd|exact Fd|exact Po|rewrite Ld; exact L].
Qed.

(** ** C57 *)

(** A source that is one INSERT statement: all groups are read if there are at most 999 of them, or
    1000 and no semicolon; otherwise none, and reading ends with a ValueError. *)
Theorem C57_insert_exact : forall file n cols sp gp gs e, table_name_ok n -> cols <> [] -> Forall column_name_ok cols ->
  gs <> [] -> Forall (group_ok (List.length cols)) gs -> e = "" \/ e = ";" ->
  forall s, normalize s = insert_text n cols sp gp gs e ->
  (fits (List.length gs) e -> read_sql file s = (mkReader [] [(n, [mkRows n (map (map lit_value) gs) cols (List.length cols) [] []])] [] true, Ok ""))
  /\ (~ fits (List.length gs) e -> read_sql file s = (mkReader [] [] [] false, Raise (ValueError "Max depth reached"))).
Proof.
  intros file n cols sp gp gs e Hn Hc Fc Hg Fg He s E.
  assert (End : insert_end e "") by (destruct He as [->| ->]; [constructor|exact (end_semi "" eq_refl)]).
  assert (R : forall x, insert_parse (strip s) = x -> read_sql file s = match x with
      | Raise ex => (new_reader, Raise ex)
      | Ok (m, rest) => read_loop (pred max_statements) file (put_rows new_reader (match m with Some w => w | None => no_rows end)) rest end).
  { intros x <-. pose proof E as E0. unfold insert_text in E0. apply (normal_prefix "INSERT" s (" INTO " ++ _)) in E0 as [y Y]; [|discriminate|reflexivity].
    unfold read_sql. pose proof statements_enough as L. destruct max_statements as [|m]; [lia|]. clear L.
    cbn [read_loop pred]. destruct (is_empty s) eqn:Q; [apply is_empty_iff in Q; subst s; discriminate|].
    assert (H1 : statement_of (strip s) = SInsert) by (rewrite Y; reflexivity).
    assert (H2 : is_empty (strip s) = false) by (rewrite Y; reflexivity).
    rewrite H1, H2. reflexivity. }
  assert (En : normalize (strip s) = insert_text n cols sp gp gs e) by (rewrite normalize_strip; exact E).
  split; intros Z.
  - destruct Z as [Z|[Z ->]]; [apply (insert_source file n cols sp gp gs e); assumption|].
    rewrite (R _ (insert_at n cols sp gp gs "" "" Hn Hc Fc Hg Fg End (strip s) En Z eq_refl)).
    destruct (pred max_statements); reflexivity.
  - rewrite (R _ (insert_over n cols sp gp gs e "" Hn Hc Fc Hg Fg End (strip s) En Z)). reflexivity.
Qed.

(** A file with too many groups is the same as no file: nothing is read of it and no error is found in it. *)
Theorem C57_file_ignored : forall {FO : FloatOracle} before file after n cols sp gp gs e s, table_name_ok n -> cols <> [] -> Forall column_name_ok cols ->
  gs <> [] -> Forall (group_ok (List.length cols)) gs -> e = "" \/ e = ";" -> normalize s = insert_text n cols sp gp gs e ->
  ~ fits (List.length gs) e ->
  file_database (before +++ (file, s) :: after) = file_database (before +++ after).
Proof.
  intros FO before file after n cols sp gp gs e s Hn Hc Fc Hg Fg He E Z.
  destruct (C57_insert_exact file n cols sp gp gs e Hn Hc Fc Hg Fg He s E) as [_ R]. specialize (R Z).
  assert (S : forall b, read_source b (file, s) = Ok b).
  { intros b. unfold read_source. cbn [fst snd]. rewrite R. cbn [caught rd_tables rd_rows rd_errors dvals map foldM bind concat fold_left].
    unfold add_errors. rewrite app_nil_r. destruct b; reflexivity. }
  unfold file_database. f_equal. generalize empty_database. induction before as [|x before IH]; intros b; cbn [List.app foldM].
  - rewrite S. reflexivity.
  - destruct (read_source b x); [cbn [bind]; apply IH|reflexivity].
Qed.

(** A thousand rows. *)
Definition many_groups : list (list literal) := repeat [LitWord "1"; LitText "x"] (N.to_nat 1000).
Example ex_C57_exact : table_name_ok "t" /\ ["id"; "a"] <> [] /\ Forall column_name_ok ["id"; "a"] /\ many_groups <> []
  /\ Forall (group_ok 2) many_groups /\ ~ fits (List.length many_groups) ";" /\ fits (List.length many_groups) ""
  /\ normalize (insert_text "t" ["id"; "a"] true true many_groups ";") = insert_text "t" ["id"; "a"] true true many_groups ";".
Proof.
  assert (L : (N.of_nat (List.length many_groups) = 1000)%N).
  { unfold many_groups. rewrite repeat_length. apply (N2Nat.id 1000). }
  split; [split; [discriminate|reflexivity]|]. split; [discriminate|]. split; [repeat (apply Forall_cons || apply Forall_nil); split; reflexivity|].
  split. { intros H. apply (f_equal (fun l => N.of_nat (List.length l))) in H. rewrite L in H. discriminate. }
  split. { unfold many_groups. apply Forall_forall. intros g I. apply repeat_spec in I as ->. split; [|split; [discriminate|reflexivity]].
    repeat (apply Forall_cons || apply Forall_nil); repeat split; try reflexivity; discriminate. }
  split; [intros [H|[_ H]]; [lia|discriminate]|]. split; [right; auto|]. vm_compute. reflexivity.
Qed.

(** The tool's own statement for a table is read back exactly when it has fewer than a thousand
    columns, keys and foreign keys together. *)
Theorem C57_own_statement_exact : forall nice t, wf_table t -> clean_name (t_name t) -> Forall readable_column (dvals (t_columns t)) ->
  Forall readable_index (dvals (t_indexes t)) -> Forall readable_fk (dvals (t_constraints t)) -> Forall readable_option (t_options t) ->
  (N.of_nat (List.length (t_options t)) < 1000)%N ->
  let parts := N.of_nat (List.length (t_columns t) + List.length (t_indexes t) + List.length (t_constraints t)) in
  (0 < parts)%N ->
  ((parts < 1000)%N -> exists t', create_parse (create_str nice t) = Ok (Some t', "") /\ alike_table t t')
  /\ ((1000 <= parts)%N -> create_parse (create_str nice t) = Raise (ValueError "Max depth reached")).
Proof.
  intros nice t W C Fc Fi Fk Fo Lo parts P. split; intros L.
  - destruct (create_read nice t) as (t' & E & A & _); [constructor; auto|]. exists t'. auto.
  - apply rendered_over; assumption.
Qed.

(** A thousand columns. *)
Definition some_letters : list string := ["a"; "b"; "c"; "d"; "e"; "f"; "g"; "h"; "i"; "j"].
Definition many_names : list string := flat_map (fun x => flat_map (fun y => map (fun z => x ++ y ++ z) some_letters) some_letters) some_letters.
Definition wide_table : table := tbl "wide" (map int_col many_names) [key "k" ["aaa"]] [].
Lemma wide_columns : dvals (t_columns wide_table) = map int_col many_names.
Proof. vm_compute. reflexivity. Qed.
Example ex_C57_own : wf_table wide_table /\ clean_name (t_name wide_table) /\ Forall readable_column (dvals (t_columns wide_table))
  /\ Forall readable_index (dvals (t_indexes wide_table)) /\ Forall readable_fk (dvals (t_constraints wide_table)) /\ t_options wide_table = []
  /\ (N.of_nat (List.length (t_columns wide_table) + List.length (t_indexes wide_table) + List.length (t_constraints wide_table)) = 1001)%N.
Proof.
  split; [apply wf_tableb_ok; vm_compute; reflexivity|]. split; [apply clean_nameb; reflexivity|].
  split. { rewrite wide_columns. assert (F : forallb (fun s => negb (is_empty s) && sforall name_ok_char s && sforall no_dash s) many_names = true) by (vm_compute; reflexivity).
    apply Forall_forall. intros c I. apply in_map_iff in I as (n & <- & I). rewrite forallb_forall in F. apply F, clean_nameb in I.
    constructor; [exact I|cbn; tauto|reflexivity| |exact Logic.I|apply clean_textb; reflexivity|apply clean_textb; reflexivity]. one_length "10". }
  split. { apply Forall_cons; [|apply Forall_nil]. constructor; [split; [discriminate|]|]; cbn; [apply Forall_cons; [|apply Forall_nil]|]; apply clean_nameb; reflexivity. }
  split; [apply Forall_nil|]. split; [reflexivity|]. vm_compute. reflexivity.
Qed.

Print Assumptions C57_own_statement_exact.
Print Assumptions C57_insert_exact.
Print Assumptions C57_file_ignored.
