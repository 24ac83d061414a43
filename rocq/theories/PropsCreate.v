(** C71, C72: CREATE TABLE statements as people write them and as servers report them. *)
From Verif Require Import StoredFacts PropsParse PropsPlan PropsRound PropsWrite Samples.

Local Opaque max_turns max_statements.

(** No part of the table has an error of its own. *)
Definition faultless (t : table) : Prop :=
  (forall c, In c (dvals (t_columns t)) -> c_perrors c = []) /\ (forall i, In i (dvals (t_indexes t)) -> ix_perrors i = [])
  /\ (forall k, In k (dvals (t_constraints t)) -> k_perrors k = [] /\ k_pwarnings k = []).
Lemma in_values {A V} (R : A -> V -> Prop) l (d : dict string V) v : Forall2 (fun a p => R a (snd p)) l d -> In v (dvals d) -> exists a, R a v.
Proof. intros F I. apply in_map_iff in I as (p & <- & I). destruct (forall2_in _ _ _ _ F I) as (a & _ & H). exists a. exact H. Qed.
Lemma read_faultless t T semi : read_table t T semi -> faultless t.
Proof.
  intros R. split; [|split].
  - intros c I. destruct (in_values _ _ _ _ (rd_columns _ _ _ R) I) as (m & S). apply S.
  - intros c I. destruct (in_values _ _ _ _ (rd_keys _ _ _ R) I) as (m & S). apply S.
  - intros c I. destruct (in_values _ _ _ _ (rd_fks _ _ _ R) I) as (m & S). apply S.
Qed.
Lemma same_reported {FO : FloatOracle} T : reported_table T T.
Proof.
  constructor; [reflexivity| |split; intros x I; exists x; repeat split; exact I|split; intros x I; exists x; repeat split; exact I].
  induction (tm_columns T); constructor; [constructor|assumption].
Qed.
Lemma same_settled Ts : NoDup (map tm_name Ts) -> Forall sound_table Ts -> settled_fks Ts Ts.
Proof.
  intros N S. assert (G : forall n c, settled Ts Ts n c).
  { intros n c T T' m m' IT IT' NT NT' Im Im' Nm Nm'. assert (T' = T) by (apply (same_named tm_name Ts); auto; congruence). subst T'.
    rewrite Forall_forall in S. assert (m' = m) by (apply (same_named m_name (tm_columns T)); auto; [apply S, IT|congruence]). subst m'. auto. }
  intros T k _ _. split; apply G.
Qed.
Lemma sources_sound srcs Ts semi : Forall2 (fun s T => source_of T semi s) srcs Ts -> Forall sound_table Ts.
Proof. induction 1 as [|s T srcs Ts (x & W & _) F IH]; constructor; [destruct W; assumption|exact IH]. Qed.
Lemma settled_incl Ts Ts1 Ts2 : (forall T, In T Ts1 -> In T Ts) -> (forall T, In T Ts2 -> In T Ts) -> settled_fks Ts Ts -> settled_fks Ts1 Ts2.
Proof.
  intros A B S T k I J. destruct (S T k (B T I) J) as [S1 S2]. split; [intros U U' m m' IU IU'; apply S1; auto|intros U U' m m' IU IU'; apply S2; auto].
Qed.

Section Theorems.
  Context {FO : FloatOracle}.

  (** ** C71 *)

  (** A statement written in any of the described ways is read as one table that has the described
      columns, keys, foreign keys and options, and nothing is left over. *)
  Theorem C71_statement_read_partial : forall T semi s, source_of T semi s ->
    exists t, create_parse s = Ok (Some t, "") /\ reads_as s t /\ table_says t T /\ faultless t
      /\ t_global_errors t = (if semi then [] else ["Missing ending semicolon for table " ++ tm_name T]) /\ t_global_warnings t = [] /\ t_rows t = None.
  Proof.
    intros T semi s S. destruct (source_parse T semi s S) as (t & P & R & L). exists t. split; [exact P|]. split; [exact L|]. split; [apply R|].
    split; [apply (read_faultless t T semi R)|]. split; [apply R|]. split; apply R.
  Qed.
  (** Two ways of writing the same table make no difference. *)
  Theorem C71_no_change_partial : forall T semi semi' s s', source_of T semi s -> source_of T semi' s' ->
    exists t t', reads_as s t /\ reads_as s' t' /\ diff t t' = Ok [] /\ diff t' t = Ok []
      /\ diff_split t t' = Ok (mkSplit None None None) /\ diff_split t' t = Ok (mkSplit None None None).
  Proof.
    intros T semi semi' s s' S S'. destruct (source_parse T semi s S) as (t & _ & R & L). destruct (source_parse T semi' s' S') as (t' & _ & R' & L').
    exists t, t'. split; [exact L|]. split; [exact L'|].
    destruct (table_quiet T T t t' semi semi' R R' (same_reported T)) as [A B]. destruct (table_quiet T T t' t semi' semi R' R (same_reported T)) as [C D]. auto.
  Qed.
  (** A directory with one file per table. *)
  Theorem C71_directory_partial : forall srcs Ts, Forall2 (fun s T => source_of T true s) (map snd srcs) Ts -> NoDup (map tm_name Ts) ->
    exists b ts, file_database srcs = Ok b /\ db_tables b = map (fun t => (t_name t, t)) ts /\ d_global_errors b = []
      /\ Forall2 (fun t T => table_says t T /\ t_global_errors t = [] /\ faultless t) ts Ts.
  Proof.
    intros srcs Ts F N. destruct (read_sources _ _ _ F) as (ts & A & B). exists (files_of ts), ts.
    split; [apply (read_files sole); [intros s t H; exact H|exact A|rewrite (read_names _ _ _ B); exact N]|]. split; [apply entry_tables|]. split; [reflexivity|].
    clear -B. induction B as [|t T ts Ts R B IH]; constructor; [|exact IH]. split; [apply R|split; [apply R|apply (read_faultless t T true R)]].
  Qed.
  (** The same tables, written differently in the files and on the server, and in any order: there is
      nothing to do. *)
  Theorem C71_plan_partial : forall srcs ss Ts Ts' semi, Forall2 (fun s T => source_of T true s) (map snd srcs) Ts -> Forall2 (fun s T => source_of T semi s) ss Ts' ->
    NoDup (map tm_name Ts) -> NoDup (map tm_name Ts') -> (forall T, In T Ts <-> In T Ts') ->
    exists b live, file_database srcs = Ok b /\ live_database ss = Ok live /\ plan_tables false (db_tables b) (Some (db_tables live)) = Ok [].
  Proof.
    intros srcs ss Ts Ts' semi F F' N N' E. destruct (read_sources _ _ _ F) as (ts & A & B). destruct (read_sources _ _ _ F') as (ts' & A' & B').
    exists (files_of ts), (live_of ts').
    split; [apply (read_files sole); [intros s t H; exact H|exact A|rewrite (read_names _ _ _ B); exact N]|].
    split; [apply (read_server sole); [intros s t H; exact H|exact A'|rewrite (read_names _ _ _ B'); exact N']|].
    change (db_tables (live_of ts')) with (db_tables (files_of ts')). rewrite !(entry_tables : forall ts, db_tables (files_of ts) = _).
    apply (reported_plan ts Ts ts' Ts' true semi); auto.
    - split; intros T I; exists T; (split; [apply E, I|apply same_reported]).
    - apply (settled_incl Ts); [auto|intros T I; apply E, I|]. apply same_settled; [exact N|apply (sources_sound _ _ _ F)].
  Qed.

  (** ** C72 *)

  (** A server that stores what the files say, up to what the specification allows, and reports it in
      the words of SHOW CREATE TABLE: there is nothing to do. *)
  Theorem C72_nothing_to_do_partial : forall quiet srcs Ts Ts', Forall2 (fun s T => source_of T true s) (map snd srcs) Ts -> Forall plain_table Ts' ->
    NoDup (map tm_name Ts) -> NoDup (map tm_name Ts') -> matched reported_table Ts Ts' -> settled_fks Ts Ts' ->
    exists b live, file_database srcs = Ok b /\ live_database (map (show_create quiet) Ts') = Ok live /\ plan_tables false (db_tables b) (Some (db_tables live)) = Ok [].
  Proof.
    intros quiet srcs Ts Ts' F P N N' M S. destruct (read_sources _ _ _ F) as (ts & A & B). destruct (read_sources _ _ _ (shown_sources quiet Ts' P)) as (ts' & A' & B').
    exists (files_of ts), (live_of ts').
    split; [apply (read_files sole); [intros s t H; exact H|exact A|rewrite (read_names _ _ _ B); exact N]|].
    split; [apply (read_server sole); [intros s t H; exact H|exact A'|rewrite (read_names _ _ _ B'); exact N']|].
    change (db_tables (live_of ts')) with (db_tables (files_of ts')). rewrite !(entry_tables : forall ts, db_tables (files_of ts) = _).
    apply (reported_plan ts Ts ts' Ts' true false); assumption.
  Qed.
  (** What a server reports is read as it is stored. *)
  Theorem C72_report_read_partial : forall quiet T, plain_table T -> exists t, reads_as (show_create quiet T) t /\ table_says t T /\ faultless t.
  Proof.
    intros quiet T P. destruct (source_parse T false (show_create quiet T)) as (t & _ & R & L).
    - exists (show_create quiet T). split; [apply show_create_written, P|apply relaid_same].
    - exists t. split; [exact L|]. split; [apply R|apply (read_faultless t T false R)].
  Qed.
  (** Table by table, without the condition on foreign keys: the tables do not differ. *)
  Theorem C72_no_difference_partial : forall quiet T T' s, source_of T true s -> plain_table T' -> reported_table T T' ->
    exists t t', reads_as s t /\ reads_as (show_create quiet T') t' /\ diff t' t = Ok [].
  Proof.
    intros quiet T T' s S P Rp. destruct (source_parse T true s S) as (t & _ & R & L). destruct (source_parse T' false (show_create quiet T')) as (t' & _ & R' & L').
    - exists (show_create quiet T'). split; [apply show_create_written, P|apply relaid_same].
    - exists t, t'. split; [exact L|]. split; [exact L'|]. apply (table_quiet T T' t t' true false R R' Rp).
  Qed.
End Theorems.

(** ** Tables that meet the hypotheses *)

Definition users_meaning (w : length_form) : tmeaning :=
  mkTMeaning "users"
    [mkMeaning "id" KNumeric "INT" w true false None true "" ""; mkMeaning "name" KString "VARCHAR" (OneNumber "255") false false (Some "x") false "" "";
     mkMeaning "about" KString "TEXT" NoLength false true None false "" ""]
    [primary_key ["id"]; unique_key "name_ind" ["name"]] [] [option_of "ENGINE" "InnoDB"].
Definition users_parts : list part :=
  [PartColumn (mkMeaning "id" KNumeric "INT" NoLength true false None true "" ""); PartKey (primary_key ["id"]);
   PartColumn (mkMeaning "name" KString "VARCHAR" (OneNumber "255") false false (Some "x") false "" ""); PartKey (unique_key "name_ind" ["name"]);
   PartColumn (mkMeaning "about" KString "TEXT" NoLength false true None false "" "")].
Definition users_texts : list string :=
  ["id integer unsigned not null auto_increment"; "Primary Key (id)"; "`name` varchar(255) not null default 'x'"; "unique index name_ind(name)"; "about Text"].
Definition users_plain : string :=
  "create table if not exists users" ++ " (" ++ " " ++ join ("," ++ " ") users_texts ++ " " ++ ")" ++ options_written [option_of "ENGINE" "InnoDB"] ++ ";".
Definition users_file : string :=
  "create table if not exists users (" ++ nl
  ++ "  id integer unsigned not null auto_increment, -- the number" ++ nl
  ++ "  Primary Key (id)," ++ nl
  ++ "  `name` varchar(255) not null default 'x'," ++ nl
  ++ "  unique index name_ind(name)," ++ nl
  ++ "  -- shown to everybody" ++ nl
  ++ "  about Text" ++ nl
  ++ ") ENGINE=InnoDB;".

Lemma relaid_app a a' b b' : relaid a a' -> relaid b b' -> relaid (a ++ b) (a' ++ b').
Proof.
  intros H B. induction H as [|c s s' H IH|c w s s' C W H IH]; [exact B|constructor; exact IH|]. cbn [String.append]. rewrite sapp_assoc. constructor; assumption.
Qed.
Lemma relaid_gap c w : c <> "-"%char -> layout w -> relaid (String c " ") (String c w).
Proof. intros C W. rewrite <- (sapp_nil_r w). constructor; [exact C|exact W|constructor]. Qed.
Lemma layout_spaces s : s <> "" -> blank s -> layout s.
Proof.
  unfold blank. induction s as [|c s IH]; [contradiction|]. intros _ H. cbn [sforall] in H. apply andb_true_iff in H as [A B]. destruct s as [|d s]; [constructor; exact A|].
  apply (layout_more (String c "") (String d s)); [constructor; exact A|apply IH; [discriminate|exact B]].
Qed.
Lemma primary_sound : sound_table (users_meaning NoLength).
Proof.
  constructor; try (cbn; lia); repeat constructor; cbn; intuition discriminate.
Qed.
Lemma written_ident n : negb (is_empty n) && sforall name_ok_char n && sforall no_dash n && sforall is_word n && match n with String c _ => negb (is_digit c) | EmptyString => true end = true -> ident_ok (false, n).
Proof.
  rewrite !andb_true_iff. intros [[A B] C]. split; [apply clean_nameb; rewrite !andb_true_iff; apply A|]. intros _. split; [exact B|]. cbn [snd]. destruct n; [exact Logic.I|apply negb_true_iff, C].
Qed.
Lemma users_written : create_written (users_meaning NoLength) true users_plain.
Proof.
  apply (create_as (users_meaning NoLength) true "create table if not exists users" " " " " " " users_parts users_texts); try reflexivity; try discriminate.
  - apply primary_sound.
  - apply (head_as "users" "create table" " if not exists" false); [reflexivity|right; exists "if not exists"; split; reflexivity|apply clean_nameb; reflexivity].
  - repeat (apply Forall2_cons || apply Forall2_nil).
    + apply part_column. apply (integer_written false "id" "integer" NoLength true false true None [IUnsigned "unsigned"; INotNull "not null"; IAuto "auto_increment"]).
      * apply bare_nameb. reflexivity.
      * left. reflexivity.
      * left. reflexivity.
      * exists false, [IUnsigned "unsigned"], [INotNull "not null"], [], [IAuto "auto_increment"]. repeat split; constructor; reflexivity.
      * discriminate.
    + apply part_key. apply (written_key (primary_key ["id"]) "Primary Key" true false [(false, "id")]); [reflexivity|discriminate|repeat constructor; apply (written_ident "id"); reflexivity|].
      constructor; reflexivity.
    + apply part_column.
      apply (written_as (mkMeaning "name" KString "VARCHAR" (OneNumber "255") false false (Some "x") false "" "") true "varchar" (OneNumber "255") false [] [INotNull "not null"] [IQuoted "default" "x"] [] [] [] (Some "x") "" "");
        try reflexivity; try (constructor; first [reflexivity|apply clean_textb; reflexivity]); try exact Logic.I.
      * split; [apply clean_nameb; reflexivity|discriminate].
      * cbn. tauto.
      * apply digitsb. reflexivity.
      * intros [H|H]; exfalso; apply H; reflexivity.
    + apply part_key. apply (written_key (unique_key "name_ind" ["name"]) "unique index name_ind" false false [(false, "name")]); [reflexivity|discriminate|repeat constructor; apply (written_ident "name"); reflexivity|].
      apply (name_unique (unique_key "name_ind" ["name"]) "unique index" false); [left; exists "UNIQUE INDEX"; split; [cbn; tauto|reflexivity]|apply (written_ident "name_ind"); reflexivity].
    + apply part_column.
      apply (written_as (mkMeaning "about" KString "TEXT" NoLength false true None false "" "") false "Text" NoLength false [] [] [] [] [] [] None "" "");
        try reflexivity; try (constructor; reflexivity); try exact Logic.I.
      * apply named_column, bare_nameb. reflexivity.
      * cbn. tauto.
      * intros [H|H]; exfalso; apply H; reflexivity.
      * intros _ _ k s H. discriminate H.
  - apply Forall_cons; [|apply Forall_nil]. destruct (ex_readable_option "ENGINE" "InnoDB" ["ENGINE"]) as [P _]; try reflexivity; try discriminate. exact P.
Qed.
Ltac laid x c w := apply (relaid_app (x ++ String c " ") (x ++ String c w)); [apply relaid_app; [apply relaid_same|apply relaid_gap; [discriminate|]]|].
Lemma users_relaid : relaid users_plain users_file.
Proof.
  assert (S : layout (nl ++ "  ")) by (apply layout_spaces; [discriminate|reflexivity]).
  laid "create table if not exists users " "("%char (nl ++ "  "); [exact S|].
  laid "id integer unsigned not null auto_increment" ","%char (" " ++ ("--" ++ " the number" ++ nl) ++ "  ").
  { apply layout_more; [constructor; reflexivity|]. apply layout_more; [constructor; reflexivity|apply layout_spaces; [discriminate|reflexivity]]. }
  laid "Primary Key (id)" ","%char (nl ++ "  "); [exact S|].
  laid "`name` varchar(255) not null default 'x'" ","%char (nl ++ "  "); [exact S|].
  laid "unique index name_ind(name)" ","%char ((nl ++ "  ") ++ ("--" ++ " shown to everybody" ++ nl) ++ "  ").
  { apply layout_more; [exact S|]. apply layout_more; [constructor; reflexivity|apply layout_spaces; [discriminate|reflexivity]]. }
  laid "about Tex" "t"%char nl; [apply layout_spaces; [discriminate|reflexivity]|]. apply relaid_same.
Qed.
Example ex_C71 : source_of (users_meaning NoLength) true users_file /\ source_of (users_meaning NoLength) true users_plain.
Proof.
  split; exists users_plain; (split; [apply users_written|]); [apply users_relaid|apply relaid_same].
Qed.

(** A server that leaves out the display width. *)
Definition orders_meaning (w : length_form) (opts : list toption) : tmeaning :=
  mkTMeaning "orders"
    [mkMeaning "id" KNumeric "INT" w true false None true "" ""; mkMeaning "user_id" KNumeric "INT" NoLength true true None false "" "";
     mkMeaning "count" KNumeric "SMALLINT" w false false (Some "0") false "" ""; mkMeaning "made" KDate "TIMESTAMP" NoLength false true None false "" ""]
    [primary_key ["id"]; key "user_ind" ["user_id"]] [mkConstraint "orders_user" "user_id" "users" "id" "CASCADE" "RESTRICT" [] []] opts.
Definition quiet0 (n : string) : bool * bool := (true, true).
Ltac plain_mcol := constructor; cbn [m_name m_kind m_type m_length m_unsigned m_null m_default m_auto m_charset m_collate];
  [apply clean_nameb; reflexivity|cbn; tauto|first [exact Logic.I|apply digitsb; reflexivity]|first [exact Logic.I|apply clean_textb; reflexivity]
  |first [discriminate|intros _ _ _ d H; first [discriminate H|injection H as <-; discriminate]]|left; reflexivity|left; reflexivity|intros [H|H]; exfalso; apply H; reflexivity|discriminate].
Ltac plain_all := repeat (apply Forall_cons || apply Forall_nil).
Lemma orders_plain w opts : w = NoLength \/ w = OneNumber "10" -> Forall plain_option opts -> (N.of_nat (List.length opts) < 1000)%N -> plain_table (orders_meaning w opts).
Proof.
  intros W O L. constructor; [constructor; try (cbn; lia); try exact L; repeat constructor; cbn; intuition discriminate|apply clean_nameb; reflexivity| | | |exact O].
  - plain_all; destruct W as [->| ->]; plain_mcol.
  - plain_all; (constructor; [split; [discriminate|plain_all; apply clean_nameb; reflexivity]|]); first [reflexivity|apply clean_nameb; reflexivity].
  - plain_all. constructor; [repeat split; try discriminate; try reflexivity; apply undashed; reflexivity|cbn; tauto].
Qed.
Lemma users_plain_table w : w = NoLength \/ w = OneNumber "10" -> plain_table (users_meaning w).
Proof.
  intros W. constructor; [constructor; try (cbn; lia); repeat constructor; cbn; intuition discriminate|apply clean_nameb; reflexivity| | |constructor|].
  - plain_all; destruct W as [->| ->]; plain_mcol.
  - plain_all; (constructor; [split; [discriminate|plain_all; apply clean_nameb; reflexivity]|]); first [reflexivity|apply clean_nameb; reflexivity].
  - apply Forall_cons; [|apply Forall_nil]. destruct (ex_readable_option "ENGINE" "InnoDB" ["ENGINE"]) as [P _]; try reflexivity; try discriminate. exact P.
Qed.
Definition orders_report : string :=
  "CREATE TABLE `orders` (" ++ nl ++ "  `id` int unsigned NOT NULL AUTO_INCREMENT," ++ nl ++ "  `user_id` int unsigned DEFAULT NULL," ++ nl
  ++ "  `count` smallint NOT NULL DEFAULT '0'," ++ nl ++ "  `made` timestamp NULL DEFAULT NULL," ++ nl ++ "  PRIMARY KEY (`id`)," ++ nl
  ++ "  KEY `user_ind` (`user_id`)," ++ nl ++ "  CONSTRAINT `orders_user` FOREIGN KEY (`user_id`) REFERENCES `users` (`id`) ON DELETE CASCADE" ++ nl
  ++ ") ENGINE=InnoDB AUTO_INCREMENT=7 DEFAULT CHARSET=utf8mb4".
Definition server_options : list toption := [option_of "ENGINE" "InnoDB"; option_of "AUTO_INCREMENT" "7"; option_of "DEFAULT CHARSET" "utf8mb4"].
Lemma server_options_plain : Forall plain_option server_options.
Proof.
  plain_all.
  - destruct (ex_readable_option "ENGINE" "InnoDB" ["ENGINE"]) as [P _]; try reflexivity; try discriminate. exact P.
  - constructor; [exists ["AUTO_INCREMENT"]; split; [discriminate|split; [constructor; [split; [discriminate|reflexivity]|constructor]|reflexivity]]|split; [cbn; lia|apply undashed; reflexivity]|].
    split; [discriminate|split; [reflexivity|apply undashed; reflexivity]].
  - destruct (ex_readable_option "DEFAULT CHARSET" "utf8mb4" ["DEFAULT"; "CHARSET"]) as [P _]; try reflexivity; try discriminate. exact P.
Qed.
Example ex_C72_report : show_create quiet0 (orders_meaning NoLength server_options) = orders_report.
Proof. reflexivity. Qed.
Definition file_tables : list tmeaning := [orders_meaning (OneNumber "10") []; users_meaning NoLength].
Definition server_tables : list tmeaning := [orders_meaning NoLength server_options; users_meaning NoLength].
Lemma orders_reported : reported_table (orders_meaning (OneNumber "10") []) (orders_meaning NoLength server_options).
Proof.
  constructor; [reflexivity| |split; intros x I; exists x; repeat split; exact I|split; intros x I; exists x; repeat split; exact I].
  repeat (apply Forall2_cons || apply Forall2_nil); try apply reported_same.
  - apply reported_as; try reflexivity; try (left; reflexivity); [right; cbn; tauto|left; split; reflexivity].
  - apply reported_as; try reflexivity; try (left; reflexivity); [right; cbn; tauto|]. right. exists "0", "0". split; [reflexivity|split; [reflexivity|]].
    apply (amount_equal _ "0" "0" (0%Z : @float_t int_floats) (0%Z : @float_t int_floats)); first [discriminate|reflexivity].
Qed.
Example ex_C72 : Forall2 (fun s T => source_of T true s) [show_create quiet0 (orders_meaning (OneNumber "10") []) ++ ";"; users_file] file_tables
  /\ Forall plain_table server_tables /\ NoDup (map tm_name file_tables) /\ NoDup (map tm_name server_tables)
  /\ matched reported_table file_tables server_tables /\ settled_fks file_tables server_tables.
Proof.
  split; [|split; [|split; [|split; [|split]]]].
  - repeat (apply Forall2_cons || apply Forall2_nil); [|apply ex_C71]. eexists. split; [apply (show_create_semi quiet0); apply orders_plain; [right; reflexivity|constructor|cbn; lia]|apply relaid_same].
  - plain_all; [apply orders_plain; [left; reflexivity|apply server_options_plain|cbn; lia]|apply users_plain_table; left; reflexivity].
  - repeat constructor; cbn; intuition discriminate.
  - repeat constructor; cbn; intuition discriminate.
  - split; intros T I; cbn [file_tables server_tables In] in I; destruct I as [<-|[<-|[]]].
    + exists (orders_meaning NoLength server_options). split; [left; reflexivity|apply orders_reported].
    + exists (users_meaning NoLength). split; [right; left; reflexivity|apply same_reported].
    + exists (orders_meaning (OneNumber "10") []). split; [left; reflexivity|apply orders_reported].
    + exists (users_meaning NoLength). split; [right; left; reflexivity|apply same_reported].
  - intros T k I J. cbn [server_tables In] in I. destruct I as [<-|[<-|[]]]; [|destruct J]. destruct J as [<-|[]]. cbn [tm_name orders_meaning k_column k_ftable k_fcolumn]. split.
    + intros T T' m m' IT IT' NT NT' Im Im' Nm Nm'. cbn [file_tables server_tables In] in IT, IT'. destruct IT as [<-|[<-|[]]]; [|discriminate NT]. destruct IT' as [<-|[<-|[]]]; [|discriminate NT'].
      cbn in Im, Im'. repeat destruct Im as [<-|Im]; try discriminate Nm; try contradiction; repeat destruct Im' as [<-|Im']; try discriminate Nm'; try contradiction; repeat split.
    + intros T T' m m' IT IT' NT NT' Im Im' Nm Nm'. cbn [file_tables server_tables In] in IT, IT'. destruct IT as [<-|[<-|[]]]; [discriminate NT|]. destruct IT' as [<-|[<-|[]]]; [discriminate NT'|].
      cbn in Im, Im'. repeat destruct Im as [<-|Im]; try discriminate Nm; try contradiction; repeat destruct Im' as [<-|Im']; try discriminate Nm'; try contradiction; repeat split.
Qed.

(** ** What servers report that is taken for a change *)

(** The display width of a column that a foreign key uses: the foreign key is dropped and added again
    in every plan. *)
Definition width_file : list tmeaning := [users_meaning (OneNumber "10"); orders_meaning NoLength []].
Definition width_server : list tmeaning := [users_meaning NoLength; orders_meaning NoLength []].
Lemma users_reported {FO : FloatOracle} : reported_table (users_meaning (OneNumber "10")) (users_meaning NoLength).
Proof.
  constructor; [reflexivity| |split; intros x I; exists x; repeat split; exact I|split; intros x I; exists x; repeat split; exact I].
  repeat (apply Forall2_cons || apply Forall2_nil); try apply reported_same.
  apply reported_as; try reflexivity; try (left; reflexivity); [right; cbn; tauto|left; split; reflexivity].
Qed.
Theorem C72_refuted : forall FO : FloatOracle, exists srcs Ts Ts', Forall2 (fun s T => source_of T true s) (map snd srcs) Ts /\ Forall plain_table Ts'
  /\ NoDup (map tm_name Ts) /\ NoDup (map tm_name Ts') /\ matched reported_table Ts Ts'
  /\ exists b live p, file_database srcs = Ok b /\ live_database (map (show_create quiet0) Ts') = Ok live
     /\ plan_tables false (db_tables b) (Some (db_tables live)) = Ok p
     /\ map op_str p = ["ALTER TABLE `orders` DROP FOREIGN KEY `orders_user`;";
                        "ALTER TABLE `orders` ADD CONSTRAINT `orders_user` FOREIGN KEY (`user_id`) REFERENCES `users` (`id`) ON DELETE CASCADE ON UPDATE RESTRICT;"].
Proof.
  intros FO. exists (map (fun T => (tm_name T, show_create quiet0 T ++ ";")) width_file), width_file, width_server.
  assert (Pu : forall w, w = NoLength \/ w = OneNumber "10" -> plain_table (users_meaning w)) by exact users_plain_table.
  assert (Po : plain_table (orders_meaning NoLength [])) by (apply orders_plain; [left; reflexivity|constructor|cbn; lia]).
  split; [|split; [|split; [|split; [|split]]]].
  - repeat (apply Forall2_cons || apply Forall2_nil); eexists; (split; [apply (show_create_semi quiet0); first [exact Po|apply Pu; right; reflexivity]|apply relaid_same]).
  - plain_all; [apply Pu; left; reflexivity|exact Po].
  - repeat constructor; cbn; intuition discriminate.
  - repeat constructor; cbn; intuition discriminate.
  - split; intros T I; cbn [width_file width_server In] in I; destruct I as [<-|[<-|[]]].
    + exists (users_meaning NoLength). split; [left; reflexivity|apply users_reported].
    + exists (orders_meaning NoLength []). split; [right; left; reflexivity|apply same_reported].
    + exists (users_meaning (OneNumber "10")). split; [left; reflexivity|apply users_reported].
    + exists (orders_meaning NoLength []). split; [right; left; reflexivity|apply same_reported].
  - found (file_database (map (fun T => (tm_name T, show_create quiet0 T ++ ";")) width_file)). found (live_database (map (show_create quiet0) width_server)).
    eexists. split; [by_vm|]. split; [by_vm|]. split; [lazy; reflexivity|]. vm_compute. reflexivity.
Qed.
(** The current time in small letters, as the files may say it: a change in every plan, with the
    words between quotes. *)
Definition time_file : string := "CREATE TABLE `t` (`id` INT(10) NOT NULL, `a` TIMESTAMP DEFAULT current_timestamp, PRIMARY KEY (`id`));".
Definition time_server : string := "CREATE TABLE `t` (`id` int(10) NOT NULL, `a` timestamp NULL DEFAULT CURRENT_TIMESTAMP, PRIMARY KEY (`id`))".
Theorem C72_refuted_time : forall FO : FloatOracle, exists b live p, file_database [("t.sql", time_file)] = Ok b /\ live_database [time_server] = Ok live
  /\ plan_tables false (db_tables b) (Some (db_tables live)) = Ok p /\ map op_str p = ["ALTER TABLE `t` CHANGE `a` `a` TIMESTAMP DEFAULT 'current_timestamp';"].
Proof.
  intros FO. found (file_database [("t.sql", time_file)]). found (live_database [time_server]). eexists.
  split; [by_vm|]. split; [by_vm|]. split; [lazy; reflexivity|]. vm_compute. reflexivity.
Qed.
(** NO ACTION, which MySQL does not mention in its reports. *)
Definition action_parent : string := "CREATE TABLE `p` (`id` INT(10) NOT NULL, PRIMARY KEY (`id`));".
Definition action_file : string :=
  "CREATE TABLE `t` (`id` INT(10) NOT NULL, PRIMARY KEY (`id`), CONSTRAINT `t_fk` FOREIGN KEY (`id`) REFERENCES `p` (`id`) ON DELETE NO ACTION);".
Definition action_server : string :=
  "CREATE TABLE `t` (`id` int(10) NOT NULL, PRIMARY KEY (`id`), CONSTRAINT `t_fk` FOREIGN KEY (`id`) REFERENCES `p` (`id`))".
Theorem C72_refuted_action : forall FO : FloatOracle, exists b live p, file_database [("p.sql", action_parent); ("t.sql", action_file)] = Ok b
  /\ live_database [action_parent; action_server] = Ok live /\ plan_tables false (db_tables b) (Some (db_tables live)) = Ok p
  /\ map op_str p = ["ALTER TABLE `t` DROP FOREIGN KEY `t_fk`;";
                     "ALTER TABLE `t` ADD CONSTRAINT `t_fk` FOREIGN KEY (`id`) REFERENCES `p` (`id`) ON DELETE NO ACTION ON UPDATE RESTRICT;"].
Proof.
  intros FO. found (file_database [("p.sql", action_parent); ("t.sql", action_file)]). found (live_database [action_parent; action_server]). eexists.
  split; [by_vm|]. split; [by_vm|]. split; [lazy; reflexivity|]. vm_compute. reflexivity.
Qed.
(** DECIMAL without a length, which servers report as decimal(10,0). *)
Definition decimal_file : string := "CREATE TABLE `t` (`id` INT(10) NOT NULL, `a` DECIMAL NOT NULL, PRIMARY KEY (`id`));".
Definition decimal_server : string := "CREATE TABLE `t` (`id` int(10) NOT NULL, `a` decimal(10,0) NOT NULL, PRIMARY KEY (`id`))".
Theorem C72_refuted_length : forall FO : FloatOracle, exists b live p, file_database [("t.sql", decimal_file)] = Ok b /\ live_database [decimal_server] = Ok live
  /\ plan_tables false (db_tables b) (Some (db_tables live)) = Ok p /\ map op_str p = ["ALTER TABLE `t` CHANGE `a` `a` DECIMAL NOT NULL;"].
Proof.
  intros FO. found (file_database [("t.sql", decimal_file)]). found (live_database [decimal_server]). eexists.
  split; [by_vm|]. split; [by_vm|]. split; [lazy; reflexivity|]. vm_compute. reflexivity.
Qed.

(** ** Statements that are read as something else, or not at all *)

(** The order of a key's columns is taken for two more columns. *)
Definition descending : string := "CREATE TABLE t (id INT NOT NULL, b VARCHAR(255) NOT NULL, KEY k (id ASC, b DESC));".
Theorem C71_refuted : exists t i, create_parse descending = Ok (Some t, "") /\ dget "k" (t_indexes t) = Some i /\ ix_columns i = ["id"; "ASC"; "b"; "DESC"] /\ faultless t.
Proof.
  found_some (create_parse descending). eexists. split; [by_vm|]. split; [reflexivity|]. split; [reflexivity|].
  split; [|split]; cbn; intros x H; repeat destruct H as [<-|H]; try contradiction; reflexivity.
Qed.
(** No table is read from these. *)
Theorem C71_refuted_refused : Forall (fun s => forall t r, create_parse s <> Ok (Some t, r))
  ["CREATE TABLE t(id INT NOT NULL);";
   "CREATE TABLE t (id INT NOT NULL AUTO_INCREMENT PRIMARY KEY);";
   "CREATE TABLE t (id INT(10) NOT NULL PRIMARY KEY);";
   "CREATE TABLE t (id INT NOT NULL, UNIQUE KEY u (id) USING BTREE);";
   "CREATE TABLE t (id INT NOT NULL COMMENT 'number');";
   "CREATE TABLE t (id INT NOT NULL, a VARCHAR(10) CHARSET utf8);";
   "CREATE TABLE t (id INT NOT NULL, KEY (id));";
   "CREATE TABLE t (id INT NOT NULL, a TIMESTAMP DEFAULT CURRENT_TIMESTAMP ON UPDATE CURRENT_TIMESTAMP);"].
Proof. repeat (apply Forall_cons || apply Forall_nil); intros t r H; vm_compute in H; discriminate H. Qed.

(** ** C73 *)
Section Present.
  Context {FO : FloatOracle}.

  (** Full statement: for every definition that a server reports.  False for definitions that the tool
      cannot read, see [C73_refuted].  Proved: for the tables described in the specification, whatever
      the files say. *)
  Theorem C73_never_missing_partial : forall quiet Ts to disable, Forall plain_table Ts -> NoDup (map tm_name Ts) -> wf_tables to ->
    exists live, live_database (map (show_create quiet) Ts) = Ok live /\
      forall ops, plan_tables disable to (Some (db_tables live)) = Ok ops ->
        (forall t, In (OCreate t) ops <-> In (t_name t, t) to /\ ~ In (t_name t) (map tm_name Ts))
        /\ (forall n, In (ODropTable n) ops <-> In n (map tm_name Ts) /\ ~ In n (dkeys to)).
  Proof.
    intros quiet Ts to disable P N W. destruct (read_sources _ _ _ (shown_sources quiet Ts P)) as (ts & A & B).
    exists (live_of ts). split; [apply (read_server sole); [intros s t H; exact H|exact A|rewrite (read_names _ _ _ B); exact N]|].
    intros ops E. assert (Q : db_tables (live_of ts) = entries ts) by apply entry_tables. rewrite Q in E.
    assert (Wl : wf_tables (entries ts)).
    { split; [rewrite entries_keys, (read_names _ _ _ B); exact N|]. intros n t I. destruct (entries_at _ _ _ _ _ B I) as (T & _ & Nm & R).
      split; [rewrite <- Nm; apply R|apply (read_wf t T false R)]. }
    destruct (C08_right_tables (entries ts) to disable ops Wl W E) as (C & D & _). rewrite entries_keys, (read_names _ _ _ B) in C, D. split; assumption.
  Qed.
End Present.
Example ex_C73 : Forall plain_table server_tables /\ NoDup (map tm_name server_tables) /\ wf_tables (entries [sample_table]).
Proof.
  split; [apply ex_C72|]. split; [apply ex_C72|]. split; [repeat constructor; cbn; tauto|]. intros n t [E|[]]. injection E as <- <-. split; [reflexivity|]. apply ex_readable_table.
Qed.
(** A comment on a column: the table is created again, and a table without a name is dropped. *)
Definition comment_server : string :=
  "CREATE TABLE `t` (" ++ nl ++ "  `id` int(10) NOT NULL," ++ nl ++ "  `a` varchar(10) NOT NULL COMMENT 'name'," ++ nl ++ "  PRIMARY KEY (`id`)" ++ nl ++ ") ENGINE=InnoDB".
Definition comment_file : string := "CREATE TABLE `t` (`id` INT(10) NOT NULL, `a` VARCHAR(10) NOT NULL, PRIMARY KEY (`id`));".
Theorem C73_refuted : forall FO : FloatOracle, exists b live p, file_database [("t.sql", comment_file)] = Ok b /\ snd (db_errors b) = Ok []
  /\ live_database [comment_server] = Ok live /\ plan_tables false (db_tables b) (Some (db_tables live)) = Ok p
  /\ map op_str p = ["CREATE TABLE `t` (`id` INT(10) NOT NULL," ++ nl ++ "`a` VARCHAR(10) NOT NULL," ++ nl ++ "PRIMARY KEY (`id`));"; "DROP TABLE ;"].
Proof.
  intros FO. found (file_database [("t.sql", comment_file)]). found (live_database [comment_server]). eexists.
  split; [by_vm|]. split; [by_vm|]. split; [by_vm|]. split; [lazy; reflexivity|]. vm_compute. reflexivity.
Qed.
(** A type that the tool does not know, and a key with USING BTREE: the table is lost without a trace. *)
Theorem C73_refuted_lost : Forall (fun s => exists live, live_database [s] = Ok live /\ db_tables live = [])
  ["CREATE TABLE `t` (`id` int(10) NOT NULL, `p` point NOT NULL, PRIMARY KEY (`id`))";
   "CREATE TABLE `t` (`id` int(10) NOT NULL, PRIMARY KEY (`id`) USING BTREE)"].
Proof.
  repeat (apply Forall_cons || apply Forall_nil).
  - found (live_database ["CREATE TABLE `t` (`id` int(10) NOT NULL, `p` point NOT NULL, PRIMARY KEY (`id`))"]). split; [by_vm|reflexivity].
  - found (live_database ["CREATE TABLE `t` (`id` int(10) NOT NULL, PRIMARY KEY (`id`) USING BTREE)"]). split; [by_vm|reflexivity].
Qed.

Print Assumptions C71_statement_read_partial.
Print Assumptions C71_no_change_partial.
Print Assumptions C71_directory_partial.
Print Assumptions C71_plan_partial.
Print Assumptions C71_refuted.
Print Assumptions C71_refuted_refused.
Print Assumptions C72_nothing_to_do_partial.
Print Assumptions C72_report_read_partial.
Print Assumptions C72_no_difference_partial.
Print Assumptions C72_refuted.
Print Assumptions C72_refuted_time.
Print Assumptions C72_refuted_action.
Print Assumptions C72_refuted_length.
Print Assumptions C73_never_missing_partial.
Print Assumptions C73_refuted.
Print Assumptions C73_refuted_lost.
