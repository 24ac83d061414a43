(** C100: words after a definition that the tool does not know and cannot take for columns are reported. *)
From Verif Require Import CliFacts Samples SpecOrder SpecLive SpecMany SpecWrite SpecStored StoredFacts OddFacts PropsParse PropsRound PropsWrite PropsLive PropsCli PropsMany PropsCreate PropsTrail PropsOther PropsList PropsHalt.

Local Opaque read_sql max_statements max_turns.

Lemma odd_complaint n before p l t d s' file : stopped_source n before (t ++ " " ++ d) s' -> odd_lead p l t -> odd_word d -> other_statement d -> (N.of_nat (List.length before + List.length l) < 998)%N ->
  complaints (file, s') = [complaint file d].
Proof. intros H L Hd O B. unfold complaints. cbn [fst snd]. rewrite (odd_read n before p l t d s' file H L Hd O B). destruct O as [N _ _ _ _ _]. cbn [snd]. destruct d; [contradiction|reflexivity]. Qed.

Section Odd.
  Context {FO : FloatOracle}.

  (** Full statement: words after a definition that the tool does not understand are reported by [check].  False, see
      [C100_hidden] and [C100_refuted].  Proved for a definition that is followed by any number of pairs of such words and
      then a single one, before a parenthesis or a space and a character that is not of a word, such as the quote in
      COMMENT 'text'; after any number of definitions that are known, in any layout and with any text after it,
      whatever the other sources are. *)
  Theorem C100_refused_partial : forall w config srcs srcs' file n before p l t d s', reads_from w config (srcs +++ (file, s') :: srcs') ->
    stopped_source n before (t ++ " " ++ d) s' -> odd_lead p l t -> odd_word d -> other_statement d -> (N.of_nat (List.length before + List.length l) < 998)%N ->
    exit_status (run_check w config) = 1 /\ run_deeds (run_plan w false config) = [] /\ forall q, ~ In (Query q) (run_deeds (run_apply w false config)).
  Proof.
    intros w config srcs srcs' file n before p l t d s' R H L Hd O B. apply (C113_nothing_sent w config _ (file, s') R); [apply in_or_app; right; left; reflexivity|].
    rewrite (odd_complaint n before p l t d s' file H L Hd O B). discriminate.
  Qed.
  (** Unless an exception ends [check], the text from the word on and the file are named. *)
  Theorem C100_reported_partial : forall w config srcs srcs' file n before p l t d s', reads_from w config (srcs +++ (file, s') :: srcs') ->
    stopped_source n before (t ++ " " ++ d) s' -> odd_lead p l t -> odd_word d -> other_statement d -> (N.of_nat (List.length before + List.length l) < 998)%N ->
    (forall e, run_end (run_check w config) <> Uncaught e) ->
    exists errors, In (complaint file d) errors
      /\ In ("Errors found in *.sql files:" ++ String.concat "" (map (fun m => String newline m) errors)) (run_out (run_check w config))
      /\ run_err (run_plan w false config) = "Errors found in *.sql files" :: errors
      /\ run_err (run_apply w false config) = "Errors found in *.sql files" :: errors.
  Proof.
    intros w config srcs srcs' file n before p l t d s' R H L Hd O B X. destruct (C113_told w config _ (file, s') (complaint file d) R) as (errors & E1 & E2 & _ & E3 & _ & E4 & _).
    - apply in_or_app. right. left. reflexivity.
    - rewrite (odd_complaint n before p l t d s' file H L Hd O B). left. reflexivity.
    - exact X.
    - exists errors. auto.
  Qed.
End Odd.

(** ** Instances *)

Lemma odd_wordb w (g : bool) c r : w <> "" -> sforall is_word w = true ->
  forallb (fun K => negb (prefix K (upper w))) (["KEY"; "INDEX"; "UNIQUE"; "CONSTRAINT"; "PRIMARY"; "FOREIGN"] +++ attribute_words) = true ->
  is_word c = false -> is_space c = false -> g = true \/ c = "("%char \/ c = ")"%char -> odd_word (w ++ gap_text g ++ String c r).
Proof. intros H1 H2 H3 H4 H5 H6. apply odd_as; auto. intros K I. rewrite forallb_forall in H3. specialize (H3 K I). destruct (prefix K (upper w)); [discriminate|reflexivity]. Qed.
Example ex_odd_word : Forall odd_word ["COMMENT 'the name', b INT);"; "INVISIBLE);"; "AS (a + b));"; "VISIBLE );"; "check(id > 0))"].
Proof.
  repeat (apply Forall_cons || apply Forall_nil).
  - apply (odd_wordb "COMMENT" true "'" "the name', b INT);"); try reflexivity; [discriminate|auto].
  - apply (odd_wordb "INVISIBLE" false ")" ";"); try reflexivity; [discriminate|auto].
  - apply (odd_wordb "AS" true "(" "a + b));"); try reflexivity; [discriminate|auto].
  - apply (odd_wordb "VISIBLE" true ")" ";"); try reflexivity; [discriminate|auto].
  - apply (odd_wordb "check" false "(" "id > 0))"); try reflexivity; [discriminate|auto].
Qed.
Definition remark_text : string := "COMMENT 'the number', KEY k (id));".
Definition remark_file : string := "create table mice (id int not null   COMMENT 'the number', KEY k (id));".
Definition remark_shop : world := site_world "/srv/app/sql" ["mice.sql"] [("/srv/app/sql/mice.sql", remark_file)] [].
Example ex_C100_reported : reads_from remark_shop "mygrate.conf" [("/srv/app/sql/mice.sql", remark_file)]
  /\ stopped_source "mice" [] ("id int not null" ++ " " ++ remark_text) remark_file /\ odd_lead (PartColumn id_col) [] "id int not null" /\ odd_word remark_text /\ other_statement remark_text
  /\ (forall e, run_end (run_check remark_shop "mygrate.conf") <> Uncaught e)
  /\ run_out (run_check remark_shop "mygrate.conf")
     = ["Errors found in *.sql files:" ++ nl ++ "Unrecognized MySQL command: COMMENT 'the number', KEY k (id)); in file /srv/app/sql/mice.sql" ++ nl ++ "Table missing name" ++ nl ++ "Table '' does not have any columns"].
Proof.
  split; [exists "/srv/app/sql"; split; vm_compute; reflexivity|]. split.
  { exists "create table mice (id int not null COMMENT 'the number', KEY k (id));".
    split; [apply (stopped_as "mice" [] ("id int not null" ++ " " ++ remark_text) "create table mice" false []); [apply (cats_head "mice"), clean_nameb; reflexivity|constructor]|].
    split; [constructor; [discriminate|vm_compute; reflexivity|apply no_comment_like; reflexivity|apply no_length_like; reflexivity]|].
    laid "create table mice (id int not nul" "l"%char "   "; [apply layout_spaces; [discriminate|reflexivity]|]. apply relaid_same. }
  split; [apply lead_part; constructor; exact id_col_written|]. split; [pose proof ex_odd_word; apply (odd_wordb "COMMENT" true "'" "the number', KEY k (id));"); try reflexivity; [discriminate|auto]|].
  split; [constructor; try reflexivity; discriminate|]. split; [intros e; vm_compute; discriminate|]. by_vm.
Qed.
(** The words before AS (a + b) in [id int not null GENERATED ALWAYS AS (a + b)]. *)
Example ex_odd_lead : odd_lead (PartColumn id_col) [mkStray "GENERATED" "ALWAYS" None []] "id int not null GENERATED ALWAYS".
Proof.
  apply lead_trailed. apply (trailed_fresh (PartColumn id_col) "id int not null" (mkStray "GENERATED" "ALWAYS" None []) []); [constructor; exact id_col_written| |].
  - repeat constructor; cbn [s_word s_next s_arg s_null]; try discriminate; try reflexivity; try (cbn; intuition discriminate); [apply (clean_nameb "GENERATED"); reflexivity|exists true; constructor].
  - repeat constructor. intros K I. cbn in I. repeat (destruct I as [<-|I]; [reflexivity|]). contradiction.
Qed.
Print Assumptions C100_refused_partial.
Print Assumptions C100_reported_partial.
