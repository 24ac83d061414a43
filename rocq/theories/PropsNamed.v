(** C119: unique keys that are named as constraints. *)
From Verif Require Import Facts ReadFacts CliFacts SpecDefs PropsDefs InlineFacts SpecServer Samples SpecLive SpecMany SpecWrite SpecNamed NamedFacts StoredFacts PropsParse PropsRound PropsWrite PropsLive PropsCli PropsMany PropsCreate PropsTrail PropsOther.
From Coq Require Import Lia.

Local Opaque max_turns max_statements.

(** ** The statement *)

Section Constraint.
  Variables (n : string) (before : list part) (u : string) (i : index) (after : list part) (opts : list toption) (semi : bool) (h w0 w1 w2 s : string) (ss ss' : list string).
  Hypothesis Hh : create_head n h.
  Hypothesis Hb : Forall2 part_written before ss.
  Hypothesis Hp : unique_constraint u i s.
  Hypothesis Ha : Forall2 part_written after ss'.
  Hypothesis Ho : Forall plain_option opts.
  Hypothesis H0 : blank w0.
  Hypothesis H1 : blank w1.
  Hypothesis H1n : w1 <> "".
  Hypothesis H2 : blank w2.
  Hypothesis Lo : (N.of_nat (List.length opts) < 1000)%N.
  Let mid : wdef := (s, fun _ => True).
  Let ds : list wdef := InlineFacts.defs_of before ss +++ mid :: InlineFacts.defs_of after ss'.
  Let whole : string := create_text w0 w1 w2 h (map rdef_text ds) opts (RoundTable.stop semi).

  Lemma held_text : h ++ " (" ++ w0 ++ join ("," ++ w1) (ss +++ s :: ss') ++ w2 ++ ")" ++ options_written opts ++ (if semi then ";" else "") = whole.
  Proof.
    unfold whole, ds. rewrite map_app. cbn [map rdef_text fst mid]. rewrite (proj1 (defs_of_ok _ _ Hb)), (proj1 (defs_of_ok _ _ Ha)).
    unfold create_text, after_defs. rewrite options_as. unfold RoundTable.stop. repeat (cbn [String.append]; rewrite ?sapp_assoc). reflexivity.
  Qed.
  Lemma held_ds : Forall def_ok ds.
  Proof. apply Forall_app. split; [|constructor; [apply (constraint_read u i s Hp)|]]; apply rdef_shapes; apply defs_of_ok; assumption. Qed.
  Lemma held_some : ds <> [].
  Proof. unfold ds. destruct (InlineFacts.defs_of before ss); discriminate. Qed.
  Lemma held_quiet : no_dd false whole = true /\ no_drop whole.
  Proof.
    split.
    - apply (rendered_dd w0 w1 w2 n h _ _ _ "" semi); first [assumption|apply stop_end|apply held_ds|destruct semi; reflexivity].
    - apply (rendered_drop w0 w1 w2 n h); first [assumption|apply held_some|apply held_ds|destruct semi; reflexivity].
  Qed.
  Lemma held_kids ps : kids max_turns definition_classes (body ds ++ closing (negb (is_empty w2)) (after_defs opts (RoundTable.stop semi))) [] = Ok (Some (ps, ")" ++ after_defs opts (RoundTable.stop semi))) ->
    exists ine tick, create_parse whole = (let* a := create_process (create_vals ine tick n ps opts semi) in Ok (Some a, "")).
  Proof.
    intros K. apply (create_kids w0 w1 w2 n h ds opts (RoundTable.stop semi) "" semi); try exact K; try exact Lo;
      first [assumption|apply stop_end|apply held_some|apply held_ds|destruct semi; reflexivity].
  Qed.
  Lemma held_ends : begins whole /\ exists y c, whole = y ++ String c "" /\ is_space c = false.
  Proof.
    split.
    - destruct Hh as [k0 j tick K _ _]. unfold begins. intros N. apply (match_none_app "create" " table") in N. unfold whole, create_text in N. rewrite !sapp_assoc in N.
      rewrite match_lit_app in N by (unfold spelled in K; rewrite K; reflexivity). discriminate N.
    - destruct (after_strip opts (RoundTable.stop semi) "" semi (stop_end semi) Ho) as [An _].
      assert (Z : neat_from false (")" ++ after_defs opts (RoundTable.stop semi)) = true) by exact An.
      destruct (ends_solid (")" ++ after_defs opts (RoundTable.stop semi)) ltac:(discriminate) false Z) as (y & c & E & C).
      exists (h ++ " (" ++ w0 ++ join ("," ++ w1) (map rdef_text ds) ++ w2 ++ y), c. split; [|exact C]. unfold whole, create_text. rewrite E. rewrite !sapp_assoc. reflexivity.
  Qed.
  Lemma held_fails : (N.of_nat (List.length before + List.length after) < 998)%N -> ~ In (upper u) known_types ->
    (forall c, In c (columns_in before) -> upper (m_name c) <> "CONSTRAINT") -> exists msg, create_parse whole = Raise (ValueError msg).
  Proof.
    intros L Hu Np. destruct (defs_of_ok _ _ Hb) as (_ & B1 & B2 & B3). destruct (defs_of_ok _ _ Ha) as (_ & A1 & A2 & A3).
    pose proof (constraint_read u i s Hp) as Lr.
    destruct (kids_long (InlineFacts.defs_of before ss) mid 2 _ (InlineFacts.defs_of after ss') (negb (is_empty w2)) (after_defs opts (RoundTable.stop semi)) max_turns B1 Lr A1)
      as (ps & qs & ps' & K & S1 & (r & d & -> & Pn & Pt & Md) & S2).
    { apply (after_strip opts (RoundTable.stop semi) "" semi (stop_end semi) Ho). }
    { apply turns_enough. rewrite B2, A2. lia. }
    { lia. }
    fold ds in K. destruct (held_kids _ K) as (ine & tick & E). rewrite E.
    set (all := ps +++ [DefCol r; d] +++ ps') in *. set (v := create_vals ine tick n all opts semi) in *.
    assert (Cn : clean_name n) by (destruct Hh; assumption).
    destruct (vals_hold ine tick n all opts semi Cn) as (V1 & V2 & _). fold v in V1, V2.
    pose proof (B3 ps S1) as M1. pose proof (A3 ps' S2) as M2.
    assert (Wi : exists t, part_written (PartKey i) t) by (destruct Hp as [k t _ _ _ _ W]; exists t; constructor; exact W). destruct Wi as [t Wi].
    assert (Ne : no_empty_key v).
    { apply named_no_empty. rewrite V2. unfold all. apply Forall_app. split; [apply (meant_named before ss); [exact Hb|exact M1]|]. apply Forall_app. split.
      - constructor; [cbn; intros Z; rewrite Z in Pn; discriminate Pn|]. apply (meant_named [PartKey i] [t]); [constructor; [exact Wi|constructor]|constructor; [exact Md|constructor]].
      - apply (meant_named after ss'); [exact Ha|exact M2]. }
    destruct (C97_exact v Ne) as [(t' & _ & _ & _ & H)|[(msg & E') _]]; [exfalso|rewrite E'; exists msg; reflexivity].
    apply (H ps (DefCol r) (d :: ps')); [rewrite V2; unfold all; reflexivity|]. apply fails_type.
    - intros (r' & I & Er).
      assert (J : exists c, In c (columns_in before) /\ p_name r' = m_name c).
      { clear -M1 I. revert I. induction M1 as [|u e parts ps0 M F IH]; intros J0; [destruct J0|]. destruct J0 as [J|J].
        - subst e. destruct u as [c|i|f]; cbn [piece_of piece_means] in M; try contradiction. destruct M as (c' & _ & _ & E & _). exists c. split; [left; reflexivity|exact E].
        - destruct (IH J) as (c & I & E). exists c. split; [|exact E]. unfold columns_in in *. cbn [map concat]. apply in_app_iff. right. exact I. }
      destruct J as (c & I' & Ec). apply (Np c I'). rewrite <- Ec, Er. exact Pn.
    - intros c (kind & G & _). rewrite (Pt Hu) in G. rewrite (proj2 (proj2 (proj2 (unknown_type _ Hu)))) in G. discriminate G.
  Qed.
End Constraint.

(** Full statement: CONSTRAINT u UNIQUE (columns) is read as the unique key u on these columns.  It never is if u
    is written without back-quotes and is not the name of a type: nothing of the file counts, and [check] finds no
    error in it, whatever the table, its other definitions, its options and the layout.  (What is printed about the
    file is the subject of C102.) *)
Theorem C119_hidden : forall n before u i after opts semi s', constraint_source n before u i after opts semi s' ->
  (N.of_nat (List.length before + List.length after) < 998)%N -> (N.of_nat (List.length opts) < 1000)%N ->
  ~ In (upper u) known_types -> (forall c, In c (columns_in before) -> upper (m_name c) <> "CONSTRAINT") ->
  (exists msg, forall file, read_sql file s' = (new_reader, Raise (ValueError msg)))
  /\ forall {FO : FloatOracle} files file files', file_database (files +++ (file, s') :: files') = file_database (files +++ files').
Proof.
  intros n before u i after opts semi s' (s & W & R) L Lo Hu Np. destruct W as [h w0 w1 w2 ss x ss' Hh F Hp F' Fo W0 W1 W1n W2].
  rewrite (held_text before after opts semi h w0 w1 w2 x ss ss' F F') in R.
  destruct (held_fails n before u i after opts semi h w0 w1 w2 x ss ss' Hh F Hp F' Fo W0 W1 W1n W2 Lo L Hu Np) as (msg & P).
  destruct (held_quiet n before u i after opts semi h w0 w1 w2 x ss ss') as [D Nd]; try assumption.
  assert (P' : create_parse s' = Raise (ValueError msg)) by (rewrite <- P; apply relaid_parse; assumption).
  destruct (held_ends n before after opts semi h w0 w1 w2 x ss ss') as [B (y & c & Es & C)]; try assumption.
  apply (relaid_literal "create" eq_refl _ _ R) in B. rewrite Es in R. destruct (relaid_last y c s' C R) as [y' E]. destruct (begins_create s' B) as (d & q & Eq & Sd & St).
  assert (S0 : strip s' = s').
  { destruct y' as [|e y']; cbn [String.append] in E; [rewrite E; unfold strip, strip_by; cbn; rewrite C; cbn; rewrite C; reflexivity|].
    rewrite E in *. injection Eq as -> _. apply strip_ends; assumption. }
  assert (Q : forall file, read_sql file s' = (new_reader, Raise (ValueError msg))) by (intros file; apply unread_sql; rewrite S0; assumption).
  split; [eauto|]. intros FO files file files'. apply (nothing_read files file files' s' msg (Q file)).
Qed.

(** ** Instances *)

Definition bird_key : index := mkIndex "" ["id"] IUnique [].
Definition birds_sql : string := "create table birds ( id int not null, constraint one_bird unique (id), KEY ids (id));".
Definition birds_file : string := "create table birds (
  id int not null,  -- the ring
  constraint one_bird unique (id), KEY ids (id));".
Lemma bird_unique : unique_constraint "one_bird" bird_key "constraint one_bird unique (id)".
Proof.
  apply (unique_as "one_bird" bird_key "constraint" "unique (id)"); try reflexivity; [discriminate|].
  apply (written_key bird_key "unique" true false [(false, "id")]); [reflexivity|discriminate|constructor; [exact id_ident|constructor]|].
  apply name_none; [exists "UNIQUE"; split; [left; reflexivity|reflexivity]|reflexivity].
Qed.
Example ex_C119 : constraint_source "birds" [PartColumn id_col] "one_bird" bird_key [PartKey id_key] [] true birds_file
  /\ ~ In (upper "one_bird") known_types /\ forall c, In c (columns_in [PartColumn id_col]) -> upper (m_name c) <> "CONSTRAINT".
Proof.
  split; [|split; [intros H; cbn in H; intuition discriminate|intros c [<-|[]]; discriminate]].
  exists birds_sql. split.
  - apply (constraint_as "birds" [PartColumn id_col] "one_bird" bird_key [PartKey id_key] [] true "create table birds" " " " " "" ["id int not null"] "constraint one_bird unique (id)" ["KEY ids (id)"]);
      try reflexivity; try discriminate; [apply (cats_head "birds"), clean_nameb; reflexivity|constructor; [constructor; exact id_col_written|constructor]|exact bird_unique|constructor; [constructor; exact ids_written|constructor]|constructor].
  - assert (S : layout (nl ++ "  ")) by (apply layout_spaces; [discriminate|reflexivity]).
    laid "create table birds " "("%char (nl ++ "  "); [exact S|].
    laid "id int not null" ","%char ("  " ++ ("--" ++ " the ring" ++ nl) ++ "  ").
    { apply layout_more; [apply layout_spaces; [discriminate|reflexivity]|]. apply layout_more; [constructor; reflexivity|apply layout_spaces; [discriminate|reflexivity]]. }
    apply relaid_same.
Qed.
(** The file is accepted without the table, and the table of the server is dropped; if the name of the constraint
    is that of a type, the table is made with a column called CONSTRAINT. *)
Definition days_sql : string := "CREATE TABLE days (id INT(10) NOT NULL, day DATE NOT NULL, PRIMARY KEY (id), CONSTRAINT date UNIQUE (day));".
Definition days_made : string := "CREATE TABLE `days` (`id` INT(10) NOT NULL,
`day` DATE NOT NULL,
`CONSTRAINT` DATE,
PRIMARY KEY (`id`),
UNIQUE KEY (`day`));".
Definition birds_live : string := "CREATE TABLE `birds` (
  `id` int(11) NOT NULL,
  UNIQUE KEY `one_bird` (`id`),
  KEY `ids` (`id`)
) ENGINE=InnoDB DEFAULT CHARSET=utf8".
Theorem C119_refuted : forall FO : FloatOracle, exists b live ops,
  file_database [("birds.sql", birds_file); ("days.sql", days_sql)] = Ok b /\ snd (db_errors b) = Ok []
  /\ live_database [birds_live] = Ok live
  /\ snd (build_commands false b (Ok (db_tables live)) (fun _ => Ok [])) = Ok ops
  /\ map op_str ops = ["SET FOREIGN_KEY_CHECKS=0;"; days_made; "DROP TABLE birds;"; "SET FOREIGN_KEY_CHECKS=1;"].
Proof.
  intros FO. found (file_database [("birds.sql", birds_file); ("days.sql", days_sql)]). found (live_database [birds_live]).
  eexists. split; [by_vm|]. split; [by_vm|]. split; [by_vm|]. split; [vm_compute; reflexivity|]. vm_compute. auto.
Qed.
Print Assumptions C119_hidden.
Print Assumptions C119_refuted.
