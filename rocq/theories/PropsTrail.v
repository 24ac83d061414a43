(** C100: words after a definition that the tool does not know. *)
From Verif Require Import Facts ReadFacts SpecTrail RoundTrail SpecDefs PropsDefs InlineFacts SpecServer Samples PropsParse PropsRound PropsWrite PropsCreate StoredFacts.
From Coq Require Import Lia.

Local Opaque max_turns max_statements.

(** ** The statement *)

Section Trailed.
  Variables (n : string) (before : list part) (p : part) (l : list stray) (after : list part) (opts : list toption) (semi : bool) (h w0 w1 w2 s : string) (ss ss' : list string).
  Hypothesis Hh : create_head n h.
  Hypothesis Hb : Forall2 part_written before ss.
  Hypothesis Hp : trailed p l s.
  Hypothesis Ha : Forall2 part_written after ss'.
  Hypothesis Ho : Forall plain_option opts.
  Hypothesis H0 : blank w0.
  Hypothesis H1 : blank w1.
  Hypothesis H1n : w1 <> "".
  Hypothesis H2 : blank w2.
  Hypothesis Lo : (N.of_nat (List.length opts) < 1000)%N.
  Let mid : wdef := (s, fun _ => True).
  Let ds : list wdef := InlineFacts.defs_of before ss +++ mid :: InlineFacts.defs_of after ss'.
  Let whole : string := create_text w0 w1 w2 h (map rdef_text ds) opts (RoundTable.stop semi).

  Lemma trailed_text : h ++ " (" ++ w0 ++ join ("," ++ w1) (ss +++ s :: ss') ++ w2 ++ ")" ++ options_written opts ++ (if semi then ";" else "") = whole.
  Proof.
    unfold whole, ds. rewrite map_app. cbn [map rdef_text fst mid]. rewrite (proj1 (defs_of_ok _ _ Hb)), (proj1 (defs_of_ok _ _ Ha)).
    unfold create_text, after_defs. rewrite options_as. unfold RoundTable.stop. repeat (cbn [String.append]; rewrite ?sapp_assoc). reflexivity.
  Qed.
  Lemma trailed_ds : Forall def_ok ds.
  Proof. apply Forall_app. split; [|constructor; [apply (trailed_read p l s Hp)|]]; apply rdef_shapes; apply defs_of_ok; assumption. Qed.
  Lemma trailed_some : ds <> [].
  Proof. unfold ds. destruct (InlineFacts.defs_of before ss); discriminate. Qed.
  Lemma trailed_quiet : no_dd false whole = true /\ no_drop whole.
  Proof.
    split.
    - apply (rendered_dd w0 w1 w2 n h _ _ _ "" semi); first [assumption|apply stop_end|apply trailed_ds|destruct semi; reflexivity].
    - apply (rendered_drop w0 w1 w2 n h); first [assumption|apply trailed_some|apply trailed_ds|destruct semi; reflexivity].
  Qed.
  Lemma trailed_kids ps : kids max_turns definition_classes (body ds ++ closing (negb (is_empty w2)) (after_defs opts (RoundTable.stop semi))) [] = Ok (Some (ps, ")" ++ after_defs opts (RoundTable.stop semi))) ->
    exists ine tick, create_parse whole = (let* a := create_process (create_vals ine tick n ps opts semi) in Ok (Some a, "")).
  Proof.
    intros K. apply (create_kids w0 w1 w2 n h ds opts (RoundTable.stop semi) "" semi); try exact K; try exact Lo;
      first [assumption|apply stop_end|apply trailed_some|apply trailed_ds|destruct semi; reflexivity].
  Qed.
  Lemma trailed_ends : begins whole /\ exists y c, whole = y ++ String c "" /\ is_space c = false.
  Proof.
    split.
    - destruct Hh as [k0 j tick K _ _]. unfold begins. intros N. apply (match_none_app "create" " table") in N. unfold whole, create_text in N. rewrite !sapp_assoc in N.
      rewrite match_lit_app in N by (unfold spelled in K; rewrite K; reflexivity). discriminate N.
    - destruct (after_strip opts (RoundTable.stop semi) "" semi (stop_end semi) Ho) as [An _].
      assert (Z : neat_from false (")" ++ after_defs opts (RoundTable.stop semi)) = true) by exact An.
      destruct (ends_solid (")" ++ after_defs opts (RoundTable.stop semi)) ltac:(discriminate) false Z) as (y & c & E & C).
      exists (h ++ " (" ++ w0 ++ join ("," ++ w1) (map rdef_text ds) ++ w2 ++ y), c. split; [|exact C]. unfold whole, create_text. rewrite E. rewrite !sapp_assoc. reflexivity.
  Qed.
  Lemma trailed_fails : (N.of_nat (List.length before + List.length after + List.length l) < 999)%N ->
    (forall c x, In c (columns_in (before +++ [p])) -> hd_error l = Some x -> m_name c <> s_word x) -> exists msg, create_parse whole = Raise (ValueError msg).
  Proof.
    intros L Np. destruct (defs_of_ok _ _ Hb) as (_ & B1 & B2 & B3). destruct (defs_of_ok _ _ Ha) as (_ & A1 & A2 & A3).
    pose proof (trailed_read p l s Hp) as Lr.
    destruct (kids_long (InlineFacts.defs_of before ss) mid (S (List.length l)) _ (InlineFacts.defs_of after ss') (negb (is_empty w2)) (after_defs opts (RoundTable.stop semi)) max_turns B1 Lr A1)
      as (ps & qs & ps' & K & S1 & (d & dl & -> & Md & Od) & S2).
    { apply (after_strip opts (RoundTable.stop semi) "" semi (stop_end semi) Ho). }
    { apply turns_enough. rewrite B2, A2. lia. }
    { lia. }
    fold ds in K. destruct (trailed_kids _ K) as (ine & tick & E). rewrite E.
    assert (X : exists x l', l = x :: l' /\ Forall stray_ok l).
    { destruct Hp as [s0 x l' _ F _|k s0 u v l' _ _ U V F _|m tk w f lu k s0 u v l' _ _ _ _ _ _ _ _ _ U V F _]; [eauto|..]; eexists _, _; (split; [reflexivity|]); (constructor; [|exact F]); [apply on_delete_ok|apply not_null_ok]; assumption. }
    destruct X as (x & l' & El & Fl). assert (Wp : exists t, part_written p t).
    { destruct Hp as [s0 x0 l0 W _ _|k s0 u v l0 -> W _ _ _ _|m tk w f lu k s0 u v l0 _ _ W _ _ _ _ _ _ _ _ _ _]; [eauto| |eauto]. exists s0. constructor. apply updated_written, W. }
    destruct Wp as [t Wp].
    set (all := ps +++ (d :: dl) +++ ps') in *. set (v := create_vals ine tick n all opts semi) in *.
    assert (Cn : clean_name n) by (destruct Hh; assumption).
    destruct (vals_hold ine tick n all opts semi Cn) as (V1 & V2 & _). fold v in V1, V2.
    assert (M1 : Forall2 meant (before +++ [p]) (ps +++ [d])) by (apply Forall2_app; [apply B3, S1|constructor; [exact Md|constructor]]).
    pose proof (A3 ps' S2) as M2.
    assert (Ne : no_empty_key v).
    { apply named_no_empty. rewrite V2. unfold all. apply Forall_app. split; [apply (meant_named before ss); [exact Hb|apply B3, S1]|]. apply Forall_app. split.
      - constructor.
        + assert (F1 : Forall named_def [d]) by (apply (meant_named [p] [t]); [constructor; [exact Wp|constructor]|constructor; [exact Md|constructor]]). inversion F1; assumption.
        + clear -Od Fl. revert Fl. induction Od as [|x q l dl Q F IH]; intros Fl; constructor; inversion Fl; subst; auto.
          destruct Q as (r & -> & Nr & _). cbn. rewrite Nr. apply (so_word x). assumption.
      - apply (meant_named after ss'); [exact Ha|exact M2]. }
    destruct (C97_exact v Ne) as [(t' & _ & _ & _ & H)|[(msg & E') _]]; [exfalso|rewrite E'; exists msg; reflexivity].
    clearbody v. subst l. inversion Od as [|? q ? dl' (r & -> & Nr & Tr) Od']; subst.
    apply (H (ps +++ [d]) (DefCol r) (dl' +++ ps')); [rewrite V2; unfold all; rewrite <- !app_assoc; reflexivity|]. apply fails_type.
    - intros (r' & I & Er).
      assert (J : exists c, In c (columns_in (before +++ [p])) /\ p_name r' = m_name c).
      { clear -M1 I. revert I. induction M1 as [|u e parts ps0 M F IH]; intros J0; [destruct J0|]. destruct J0 as [J|J].
        - subst e. destruct u as [c|i|f]; cbn [piece_of piece_means] in M; try contradiction. destruct M as (c' & _ & _ & E & _). exists c. split; [left; reflexivity|exact E].
        - destruct (IH J) as (c & I & E). exists c. split; [|exact E]. unfold columns_in in *. cbn [map concat]. apply in_app_iff. right. exact I. }
      destruct J as (c & I' & Ec). apply (Np c x I' eq_refl). rewrite <- Ec, Er. exact Nr.
    - intros c (kind & G & _). rewrite Tr in G. inversion Fl; subst. rewrite (proj2 (proj2 (proj2 (unknown_type _ (so_unknown x ltac:(assumption)))))) in G. discriminate G.
  Qed.
End Trailed.

(** A definition that is followed by an even number of words the tool does not know, so that they can be
    taken for columns: nothing of the file counts, and [check] finds no error in it, whatever else
    it says and in any layout.  (What is printed about it is the subject of C102.) *)
Theorem C100_hidden : forall n before p l after opts semi s', trailed_source n before p l after opts semi s' ->
  (N.of_nat (List.length before + List.length after + List.length l) < 999)%N -> (N.of_nat (List.length opts) < 1000)%N ->
  (forall c x, In c (columns_in (before +++ [p])) -> hd_error l = Some x -> m_name c <> s_word x) ->
  (exists msg, forall file, read_sql file s' = (new_reader, Raise (ValueError msg)))
  /\ forall {FO : FloatOracle} files file files', file_database (files +++ (file, s') :: files') = file_database (files +++ files').
Proof.
  intros n before p l after opts semi s' (s & W & R) L Lo Np. destruct W as [h w0 w1 w2 ss x ss' Hh F Hp F' Fo W0 W1 W1n W2].
  rewrite (trailed_text before after opts semi h w0 w1 w2 x ss ss' F F') in R.
  destruct (trailed_fails n before p l after opts semi h w0 w1 w2 x ss ss' Hh F Hp F' Fo W0 W1 W1n W2 Lo L Np) as (msg & P).
  destruct (trailed_quiet n before p l after opts semi h w0 w1 w2 x ss ss') as [D Nd]; try assumption.
  assert (P' : create_parse s' = Raise (ValueError msg)) by (rewrite <- P; apply relaid_parse; assumption).
  destruct (trailed_ends n before after opts semi h w0 w1 w2 x ss ss') as [B (y & c & Es & C)]; try assumption.
  apply (relaid_literal "create" eq_refl _ _ R) in B. rewrite Es in R. destruct (relaid_last y c s' C R) as [y' E]. destruct (begins_create s' B) as (d & q & Eq & Sd & St).
  assert (S0 : strip s' = s').
  { destruct y' as [|e y']; cbn [String.append] in E; [rewrite E; unfold strip, strip_by; cbn; rewrite C; cbn; rewrite C; reflexivity|].
    rewrite E in *. injection Eq as -> _. apply strip_ends; assumption. }
  assert (Q : forall file, read_sql file s' = (new_reader, Raise (ValueError msg))) by (intros file; apply unread_sql; rewrite S0; assumption).
  split; [eauto|]. intros FO files file files'. apply (nothing_read files file files' s' msg (Q file)).
Qed.
Print Assumptions C100_hidden.

(** ** Instances *)

Definition id_col : meaning := mkMeaning "id" KNumeric "INT" NoLength false false None false "" "".
Definition owner_fk : constraint := mkConstraint "owner" "id" "users" "id" "RESTRICT" "CASCADE" [] [].
Definition pets_sql : string := "create table pets (id int not null, CONSTRAINT owner FOREIGN KEY (id) REFERENCES users (id) ON UPDATE CASCADE ON DELETE SET NULL);".
Definition pet_strays : list stray := [mkStray "ON" "DELETE" None []; mkStray "SET" "NULL" None []].
Definition id_key : index := mkIndex "ids" ["id"] IIndex [].
Definition cats_sql : string := "create table cats (id int not null, KEY ids (id) USING BTREE);".
Definition dogs_sql : string := "create table dogs (id int not null REFERENCES users (id), KEY ids (id));".

Lemma id_col_written : written id_col "id int not null".
Proof.
  apply (written_as id_col false "int" NoLength false [] [INotNull "not null"] [] [] [] [] None "" "");
    first [reflexivity|exact Logic.I|apply named_column, bare_nameb; reflexivity|cbn; tauto|constructor; reflexivity|constructor|intros [X|X]; exfalso; apply X; reflexivity|discriminate].
Qed.
Lemma identb tick n : clean_name n -> (tick = false -> sforall is_word n = true /\ match n with String c _ => is_digit c = false | EmptyString => True end) -> ident_ok (tick, n).
Proof. intros C W. split; assumption. Qed.
Lemma id_ident : ident_ok (false, "id").
Proof. apply identb; [apply clean_nameb; reflexivity|intros _; split; reflexivity]. Qed.
Lemma users_ident : ident_ok (false, "users").
Proof. apply identb; [apply clean_nameb; reflexivity|intros _; split; reflexivity]. Qed.
Lemma owner_updated : fk_updated owner_fk "CONSTRAINT owner FOREIGN KEY (id) REFERENCES users (id) ON UPDATE CASCADE".
Proof.
  apply (updated_fk owner_fk "CONSTRAINT" "FOREIGN KEY" "REFERENCES" false false false false true "" "ON UPDATE CASCADE"); try reflexivity.
  - apply identb; [apply clean_nameb; reflexivity|intros _; split; reflexivity].
  - exact id_ident.
  - exact users_ident.
  - exact id_ident.
  - constructor.
  - cbn; tauto.
Qed.
Lemma ids_written : key_written id_key "KEY ids (id)".
Proof.
  apply (written_key id_key "KEY ids" true false [(false, "id")]); [reflexivity|discriminate|constructor; [exact id_ident|constructor]|].
  apply (name_key id_key "KEY" false); [exists "KEY"; split; [cbn; tauto|reflexivity]|]. apply identb; [apply clean_nameb; reflexivity|intros _; split; reflexivity].
Qed.
Lemma strayb a b : negb (is_empty a) && sforall name_ok_char a && sforall no_dash a && (negb (smem (upper a) key_words) && negb (prefix "UNIQUE" (upper a))) = true -> prefix "CONSTRAINT" (upper a) = false ->
  negb (is_empty b) && sforall is_word b && negb (smem (upper b) known_types) = true -> stray_ok (mkStray a b None []).
Proof.
  intros A Ca B. apply andb_true_iff in B as [B B3]. apply andb_true_iff in B as [B1 B2]. constructor; cbn [s_word s_next s_arg s_null].
  - split; [apply bare_nameb, A|exact Ca].
  - split; [intros ->; discriminate|exact B2].
  - intros I. apply smem_iff in I. rewrite I in B3. discriminate.
  - discriminate.
  - exists true. constructor.
Qed.
Lemma attributeb x : forallb (fun k => negb (prefix k (upper (s_word x)))) attribute_words = true -> no_attribute x.
Proof. intros H k I. rewrite forallb_forall in H. apply negb_true_iff, (H k I). Qed.

Lemma cats_head n : clean_name n -> create_head n ("create table " ++ n).
Proof. intros N. apply (head_as n "create table" "" false); [reflexivity|left; reflexivity|exact N]. Qed.
Example ex_C100_delete : trailed_source "pets" [PartColumn id_col] (PartFk owner_fk) pet_strays [] [] true pets_sql.
Proof.
  exists pets_sql. split; [|apply relaid_same].
  apply (trailed_as "pets" [PartColumn id_col] (PartFk owner_fk) pet_strays [] [] true "create table pets" "" " " "" ["id int not null"]
    "CONSTRAINT owner FOREIGN KEY (id) REFERENCES users (id) ON UPDATE CASCADE ON DELETE SET NULL" []);
    try reflexivity; try discriminate; [apply (cats_head "pets"), clean_nameb; reflexivity|constructor; [constructor; apply id_col_written|constructor]| |constructor|constructor].
  apply (trailed_delete (PartFk owner_fk) owner_fk "CONSTRAINT owner FOREIGN KEY (id) REFERENCES users (id) ON UPDATE CASCADE" "ON" "DELETE" [mkStray "SET" "NULL" None []]); try reflexivity; [exact owner_updated|..]; constructor; try constructor.
  - split; [apply bare_nameb; reflexivity|reflexivity].
  - split; [discriminate|reflexivity].
  - cbn. intuition discriminate.
  - discriminate.
  - exists true. constructor.
  - apply attributeb. reflexivity.
Qed.
Example ex_C100_key : trailed_source "cats" [PartColumn id_col] (PartKey id_key) [mkStray "USING" "BTREE" None []] [] [] true cats_sql
  /\ forall c x, In c (columns_in ([PartColumn id_col] +++ [PartKey id_key])) -> hd_error [mkStray "USING" "BTREE" None []] = Some x -> m_name c <> s_word x.
Proof.
  split; [|intros c x [<-|[]] [= <-]; discriminate].
  exists cats_sql. split; [|apply relaid_same].
  apply (trailed_as "cats" [PartColumn id_col] (PartKey id_key) [mkStray "USING" "BTREE" None []] [] [] true "create table cats" "" " " "" ["id int not null"] "KEY ids (id) USING BTREE" []);
    try reflexivity; try discriminate; [apply (cats_head "cats"), clean_nameb; reflexivity|constructor; [constructor; apply id_col_written|constructor]| |constructor|constructor].
  apply (trailed_fresh (PartKey id_key) "KEY ids (id)"); [constructor; exact ids_written|..]; (constructor; [|constructor]); [apply strayb; reflexivity|apply attributeb; reflexivity].
Qed.
Example ex_C100_column : trailed_source "dogs" [] (PartColumn id_col) [mkStray "REFERENCES" "users" (Some (true, (false, "id"))) []] [PartKey id_key] [] true dogs_sql.
Proof.
  exists dogs_sql. split; [|apply relaid_same].
  apply (trailed_as "dogs" [] (PartColumn id_col) [mkStray "REFERENCES" "users" (Some (true, (false, "id"))) []] [PartKey id_key] [] true "create table dogs" "" " " "" []
    "id int not null REFERENCES users (id)" ["KEY ids (id)"]);
    try reflexivity; try discriminate; [apply (cats_head "dogs"), clean_nameb; reflexivity|constructor| |constructor; [constructor; exact ids_written|constructor]|constructor].
  apply (trailed_fresh (PartColumn id_col) "id int not null"); [constructor; exact id_col_written|..]; (constructor; [|constructor]); [|apply attributeb; reflexivity].
  constructor; cbn [s_word s_next s_arg s_null].
  - split; [apply bare_nameb; reflexivity|reflexivity].
  - split; [discriminate|reflexivity].
  - cbn. intuition discriminate.
  - intros g i [= <- <-]. exact id_ident.
  - exists true. constructor.
Qed.

(** The files are accepted by [check], but no table is left of them, and the tool plans to drop the tables
    a server has: ON UPDATE before ON DELETE, USING BTREE, REFERENCES in a column, ZEROFILL and DOUBLE PRECISION. *)
Definition fish_sql : string := "CREATE TABLE `fish` (`id` INT(10) UNSIGNED ZEROFILL NOT NULL, PRIMARY KEY (`id`));".
Definition owls_sql : string := "CREATE TABLE `owls` (`id` INT(10) NOT NULL, `size` DOUBLE PRECISION NOT NULL, PRIMARY KEY (`id`));".
Definition simple_live (n : string) : string := "CREATE TABLE `" ++ n ++ "` (
  `id` int(10) NOT NULL,
  PRIMARY KEY (`id`)
) ENGINE=InnoDB DEFAULT CHARSET=utf8".
Definition trail_files : list (string * string) :=
  [("cats.sql", cats_sql); ("dogs.sql", dogs_sql); ("fish.sql", fish_sql); ("owls.sql", owls_sql); ("pets.sql", pets_sql)].
Theorem C100_refuted : forall FO : FloatOracle, exists b live ops,
  file_database trail_files = Ok b /\ snd (db_errors b) = Ok [] /\ d_tables b = []
  /\ live_database (map simple_live ["cats"; "dogs"; "fish"; "owls"; "pets"]) = Ok live
  /\ snd (build_commands false b (Ok (db_tables live)) (fun _ => Ok [])) = Ok ops
  /\ map op_str ops = ["SET FOREIGN_KEY_CHECKS=0;"; "DROP TABLE cats;"; "DROP TABLE dogs;"; "DROP TABLE fish;"; "DROP TABLE owls;"; "DROP TABLE pets;"; "SET FOREIGN_KEY_CHECKS=1;"].
Proof.
  intros FO. found (file_database trail_files). found (live_database (map simple_live ["cats"; "dogs"; "fish"; "owls"; "pets"])).
  eexists. split; [by_vm|]. split; [by_vm|]. split; [by_vm|]. split; [by_vm|]. split; [vm_compute; reflexivity|]. vm_compute. auto.
Qed.
Print Assumptions C100_refuted.
