(** C121: what becomes of a column that is declared UNIQUE where it is defined. *)
From Verif Require Import RoundKeys RoundTable WriteCreate RoundTrail.
From Verif Require Import CliFacts Samples SpecOrder SpecLive SpecMany SpecWrite SpecStored StoredFacts OddFacts PropsParse PropsRound PropsWrite PropsLive PropsCli PropsMany PropsCreate PropsTrail PropsOther PropsList PropsHalt PropsOdd SoleFacts.

Lemma no_open m : has_char "(" m = false -> sforall not_open m = true.
Proof.
  unfold has_char. induction m as [|c m IH]; [reflexivity|]. cbn [sexists sforall]. intros H. apply orb_false_iff in H as [O1 O2]. rewrite (IH O2), andb_true_r.
  clear - O1. destruct c as [[|] [|] [|] [|] [|] [|] [|] [|]]; vm_compute in O1 |- *; congruence.
Qed.
Lemma next_some m : begins_next m -> m <> "".
Proof. intros [y|w v y N]; [discriminate|]. destruct w; [contradiction|discriminate]. Qed.
Lemma sole_text mid cols s e : swallowed mid cols s -> ending_ok e ->
  (exists i, best_child definition_classes (s ++ ending_raw e) None = Ok (Some (DefIndex i, ending_left e)) /\ ix_type i = IUnique /\ ix_columns i = map snd cols)
  /\ exists x z, s ++ ending_raw e = String x z /\ ending_ok (EWords x z) /\ calm_end (EWords x z).
Proof.
  intros [u g sp U Tm B O Nc Fc] He. clear s.
  assert (Hm : trim mid = true /\ mid <> "" /\ sforall not_open mid = true) by (split; [apply normal_trim, Tm|]; split; [apply next_some, B|apply no_open, O]).
  assert (Es : (u ++ ", " ++ mid ++ gap_text g ++ "(" ++ idents_text sp cols ++ ")") ++ ending_raw e = u ++ ", " ++ mid ++ gapped cols g sp e).
  { unfold gapped, RoundKeys.tail, listed. repeat (cbn [String.append]; rewrite ?sapp_assoc). reflexivity. }
  rewrite Es. split; [apply sole_read; auto|].
  destruct (sole_columns mid cols u g sp e U Hm B (conj Nc Fc) He) as (T & _). destruct (sole_open u U) as (u0 & x0 & Su & Eu & _).
  assert (M : forall K, diverge K "UNIQUE" = true -> match_lit K (u ++ ", " ++ mid ++ gapped cols g sp e) = None) by (intros K Q; rewrite Eu, sapp_assoc; apply (spelled_none K "UNIQUE"); assumption).
  destruct (u ++ ", " ++ mid ++ gapped cols g sp e) as [|x z] eqn:E; [apply sapp_eq_nil in E as [_ E]; discriminate|].
  exists x, z. split; [reflexivity|]. split; [split; [exact T|]; intros K I; cbn in I|unfold calm_end; cbn [ending_text]; intros K I; cbn in I];
    repeat (destruct I as [<-|I]; [apply M; reflexivity|]); contradiction.
Qed.

(** ** C121 *)

(** Full statement: a column that is declared UNIQUE where it is defined is read as that column and a unique key on it, or
    reported.  False, see [C121_refuted].  After the column itself, all the text up to the next list in parentheses, the
    definitions in between included, becomes one unique key on the names in that list. *)
Theorem C121_lost : forall p t mid cols s, part_written p t -> swallowed mid cols s ->
  (forall next, normalize next = next -> next <> "" -> exists d i,
     best_child definition_classes (t ++ " " ++ s ++ ", " ++ next) None = Ok (Some (d, s ++ ", " ++ next)) /\ meant_by p d
     /\ best_child definition_classes (s ++ ", " ++ next) None = Ok (Some (DefIndex i, next)) /\ ix_type i = IUnique /\ ix_columns i = map snd cols)
  /\ (forall rest, normalize rest = rest -> exists d i,
     best_child definition_classes (t ++ " " ++ s ++ ")" ++ rest) None = Ok (Some (d, s ++ ")" ++ rest)) /\ meant_by p d
     /\ best_child definition_classes (s ++ ")" ++ rest) None = Ok (Some (DefIndex i, ")" ++ rest)) /\ ix_type i = IUnique /\ ix_columns i = map snd cols).
Proof.
  intros p t mid cols s W S.
  assert (G : forall e, ending_ok e -> exists d i, best_child definition_classes (t ++ " " ++ s ++ ending_raw e) None = Ok (Some (d, s ++ ending_raw e)) /\ meant_by p d
     /\ best_child definition_classes (s ++ ending_raw e) None = Ok (Some (DefIndex i, ending_left e)) /\ ix_type i = IUnique /\ ix_columns i = map snd cols).
  { intros e He. destruct (sole_text mid cols s e S He) as [(i & B & Ti & Ci) (x & z & E & Ez & Ec)].
    destruct (proj2 (part_ok p t W) (EWords x z) Ez Ec) as (d & Bd & M). exists d, i. cbn [fst snd] in *. rewrite E in *. auto. }
  split.
  - intros next T N. apply (G (EComma next)). split; [apply normal_trim, T|exact N].
  - intros rest T. apply (G (EClose false rest)). cbn. apply trim_neat, normal_trim, T.
Qed.
(** The file declares the primary key UNIQUE as well.  [check] finds nothing, and [plan] drops the other columns of the
    table, which the file has, with all that is in them. *)
Definition sole_sql : string := "CREATE TABLE t (id INT NOT NULL UNIQUE, a INT NOT NULL, b INT NOT NULL, PRIMARY KEY (id));".
Definition sole_live : string := "CREATE TABLE `t` (
  `id` int(10) NOT NULL,
  `a` int(10) NOT NULL,
  `b` int(10) NOT NULL,
  PRIMARY KEY (`id`)
) ENGINE=InnoDB DEFAULT CHARSET=utf8".
Theorem C121_refuted : forall FO : FloatOracle, exists b live ops t i,
  file_database [("t.sql", sole_sql)] = Ok b /\ snd (db_errors b) = Ok []
  /\ map to_table (dvals (d_tables b)) = [t] /\ dkeys (t_columns t) = ["id"] /\ t_primary t = None /\ dvals (t_indexes t) = [i] /\ ix_name i = ", a INT NOT NULL, b INT NOT NULL, PRIMARY KEY"
  /\ live_database [sole_live] = Ok live
  /\ snd (build_commands false b (Ok (db_tables live)) (fun _ => Ok [])) = Ok ops
  /\ map op_str ops = ["SET FOREIGN_KEY_CHECKS=0;";
       "ALTER TABLE `t` DROP a, DROP b, ADD UNIQUE KEY `, a INT NOT NULL, b INT NOT NULL, PRIMARY KEY` (`id`), DROP PRIMARY KEY;"; "SET FOREIGN_KEY_CHECKS=1;"].
Proof.
  intros FO. found (file_database [("t.sql", sole_sql)]). found (live_database [sole_live]).
  eexists. eexists. eexists. split; [by_vm|]. split; [by_vm|]. split; [vm_compute; reflexivity|]. split; [reflexivity|]. split; [reflexivity|]. split; [vm_compute; reflexivity|].
  split; [vm_compute; reflexivity|]. split; [by_vm|]. split; [vm_compute; reflexivity|]. vm_compute. reflexivity.
Qed.
(** UNIQUE at the end of the last definition is reported, unless a parenthesis is opened further on in the file: [check] fails
    and [plan] and [apply] send nothing, whatever the other sources are. *)
Section Last.
  Context {FO : FloatOracle}.
  Theorem C121_last_refused : forall w config srcs srcs' file n before p t u g r s', reads_from w config (srcs +++ (file, s') :: srcs') ->
    part_written p t -> spelled "UNIQUE" u -> has_char "(" r = false -> other_statement (u ++ gap_text g ++ ")" ++ r) ->
    stopped_source n before (t ++ " " ++ u ++ gap_text g ++ ")" ++ r) s' -> (N.of_nat (List.length before) < 998)%N ->
    exit_status (run_check w config) = 1 /\ run_deeds (run_plan w false config) = [] /\ (forall q, ~ In (Query q) (run_deeds (run_apply w false config)))
    /\ ((forall e, run_end (run_check w config) <> Uncaught e) -> exists errors, In (complaint file (u ++ gap_text g ++ ")" ++ r)) errors
        /\ In ("Errors found in *.sql files:" ++ String.concat "" (map (fun m => String newline m) errors)) (run_out (run_check w config))
        /\ run_err (run_plan w false config) = "Errors found in *.sql files" :: errors
        /\ run_err (run_apply w false config) = "Errors found in *.sql files" :: errors).
  Proof.
    intros w config srcs srcs' file n before p t u g r s' R W U O H St L.
    assert (Hl : odd_lead p [] t) by (apply lead_part, W). assert (Hd : odd_word (u ++ gap_text g ++ ")" ++ r)) by (apply (odd_unique u g r); assumption).
    assert (L' : (N.of_nat (List.length before + List.length (@nil stray)) < 998)%N) by (cbn [List.length]; rewrite Nat.add_0_r; exact L).
    destruct (C100_refused_partial w config srcs srcs' file n before p [] t _ s' R St Hl Hd H L') as (A & B & C).
    split; [exact A|]. split; [exact B|]. split; [exact C|]. exact (C100_reported_partial w config srcs srcs' file n before p [] t _ s' R St Hl Hd H L').
  Qed.
End Last.
Definition sole_last : string := "create table mice (id int not null UNIQUE) ENGINE=InnoDB;".
Definition sole_shop : world := site_world "/srv/app/sql" ["mice.sql"] [("/srv/app/sql/mice.sql", sole_last)] [].
Example ex_C121_last : reads_from sole_shop "mygrate.conf" [("/srv/app/sql/mice.sql", sole_last)]
  /\ part_written (PartColumn id_col) "id int not null" /\ spelled "UNIQUE" "UNIQUE" /\ has_char "(" " ENGINE=InnoDB;" = false /\ other_statement ("UNIQUE" ++ gap_text false ++ ")" ++ " ENGINE=InnoDB;")
  /\ stopped_source "mice" [] ("id int not null" ++ " " ++ "UNIQUE" ++ gap_text false ++ ")" ++ " ENGINE=InnoDB;") sole_last
  /\ (forall e, run_end (run_check sole_shop "mygrate.conf") <> Uncaught e)
  /\ run_out (run_check sole_shop "mygrate.conf")
     = ["Errors found in *.sql files:" ++ nl ++ "Unrecognized MySQL command: UNIQUE) ENGINE=InnoDB; in file /srv/app/sql/mice.sql" ++ nl ++ "Table missing name" ++ nl ++ "Table '' does not have any columns"].
Proof.
  split; [exists "/srv/app/sql"; split; vm_compute; reflexivity|]. split; [constructor; exact id_col_written|]. split; [reflexivity|]. split; [reflexivity|].
  split; [constructor; try reflexivity; discriminate|]. split.
  { exists sole_last.
    split; [apply (stopped_as "mice" [] ("id int not null" ++ " " ++ "UNIQUE) ENGINE=InnoDB;") "create table mice" false []); [apply (cats_head "mice"), clean_nameb; reflexivity|constructor]|].
    split; [constructor; [discriminate|vm_compute; reflexivity|apply no_comment_like; reflexivity|apply no_length_like; reflexivity]|]. apply relaid_same. }
  split; [intros e; vm_compute; discriminate|]. by_vm.
Qed.
Lemma next_wordsb w v y : w <> "" -> sforall is_word w = true -> v <> "" -> sforall is_word v = true ->
  forallb (fun K => negb (prefix K (upper v))) ("PRIMARY" :: attribute_words) = true -> match y with String c _ => is_word c = false | _ => True end -> begins_next (w ++ " " ++ v ++ y).
Proof.
  intros H1 H2 H3 H4 H5 H6. apply begins_words; auto.
  - intros K I. rewrite forallb_forall in H5. specialize (H5 K I). destruct (prefix K (upper v)); [discriminate|reflexivity].
  - intros c z ->. exact H6.
Qed.
Example ex_C121_lost : part_written (PartColumn id_col) "id int not null"
  /\ swallowed "a INT NOT NULL, b INT NOT NULL, PRIMARY KEY" [(false, "id")] "UNIQUE, a INT NOT NULL, b INT NOT NULL, PRIMARY KEY (id)"
  /\ swallowed "`n` int, key k" [(true, "id")] "unique key, `n` int, key k(`id`)".
Proof.
  split; [constructor; exact id_col_written|]. split.
  - apply (sole_as "a INT NOT NULL, b INT NOT NULL, PRIMARY KEY" [(false, "id")] "UNIQUE" true false); try reflexivity; try discriminate; [apply unique_alone; reflexivity| |].
    + apply (next_wordsb "a" "INT" " NOT NULL, b INT NOT NULL, PRIMARY KEY"); try reflexivity; discriminate.
    + constructor; [|constructor]. split; [apply clean_nameb; reflexivity|]. intros _. split; reflexivity.
  - apply (sole_as "`n` int, key k" [(true, "id")] "unique key" false false); try reflexivity; try discriminate; [apply (unique_key "unique" "KEY" "key"); auto; reflexivity| |].
    + apply (begins_quoted "n` int, key k").
    + constructor; [|constructor]. split; [apply clean_nameb; reflexivity|]. intros _. split; reflexivity.
Qed.
Print Assumptions C121_lost.
Print Assumptions C121_refuted.
Print Assumptions C121_last_refused.
