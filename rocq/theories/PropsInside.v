(** C115: comments inside of statements. *)
From Verif Require Import CliFacts Samples SpecLive SpecMany SpecWrite SpecInside RoundRows InsideFacts PropsParse PropsRound PropsWrite PropsLive PropsCli PropsMany PropsCreate PropsSeen PropsMeaning PropsDefs PropsTrail PropsTold PropsInsert PropsCut PropsRemark.

Local Opaque read_sql max_statements max_turns.

(** Full statement: a comment from two hyphens to the end of its line changes nothing, wherever it stands
    outside of quotes.  False for files that begin with INSERT, see [C115_insert_hides] and [C115_refuted].
    Proved: for every text that begins with CREATE, whatever it holds and however it is read or refused, with
    any number of comments inside and outside of its statements. *)
Theorem C115_create_partial : forall file s s', commented s s' -> read_sql file s' = read_sql file s.
Proof. intros file s s'. apply commented_read. Qed.
(** The same for check: what it prints and how it ends does not depend on the comments. *)
Theorem C115_check_partial : forall (FO : FloatOracle) w w' config srcs srcs', reads_from w config srcs -> reads_from w' config srcs' ->
  Forall2 (fun src src' => fst src <> "" /\ fst src' = fst src /\ commented (snd src) (snd src')) srcs srcs' ->
  file_database srcs' = file_database srcs /\ run_check w' config = run_check w config.
Proof.
  intros FO w w' config srcs srcs' R R' F.
  assert (G : forall b, foldM read_source srcs' b = foldM read_source srcs b /\ source_notices b srcs' = source_notices b srcs).
  { clear R R'. induction F as [|[f s] [f' s'] l l' (Nf & E & C) F IH]; intros b; [split; reflexivity|]. cbn [fst snd] in *. subst f'. pose proof (C115_create_partial f s s' C) as Q.
    assert (Q' : read_source b (f, s') = read_source b (f, s)) by (unfold read_source; cbn [fst snd]; rewrite Q; reflexivity).
    cbn [foldM source_notices]. rewrite Q'. unfold source_notice. cbn [fst snd]. rewrite Q. destruct f as [|ch f]; [contradiction|]. cbn [is_empty]. destruct (read_source b (String ch f, s)) as [b'|e]; [|split; reflexivity].
    cbn [bind]. destruct (IH b') as [I1 I2]. rewrite I1, I2. split; reflexivity. }
  assert (D : file_database srcs' = file_database srcs) by (unfold file_database; rewrite (proj1 (G empty_database)); reflexivity).
  split; [exact D|]. unfold run_check. rewrite (reads_notices w config srcs R), (reads_notices w' config srcs' R'), (proj2 (G empty_database)).
  rewrite (reads_load w config srcs R), (reads_load w' config srcs' R'), D. reflexivity.
Qed.

Definition part_1 : string := "create table users (" ++ String newline "  id int not null, ".
Definition part_2 : string := "  primary key (id)" ++ String newline ");" ++ String newline "insert into users (id) values (1), ".
Definition part_3 : string := "(2);".
Definition bare_users : string := part_1 ++ String newline (part_2 ++ String newline part_3).
Definition noted_users : string := part_1 ++ "--" ++ " 'it is (a number" ++ String newline (part_2 ++ "--" ++ " the first; and" ++ String newline (part_3 ++ "--" ++ " done")).
Lemma not_hyphen x d : Ascii.eqb d "-" = false -> ~ hyphen_last (x ++ String d "").
Proof.
  intros D [a E]. revert a E. induction x as [|c x IH]; intros a E; cbn [String.append] in E.
  - destruct a as [|y [|z a]]; [injection E as ->; discriminate|discriminate|discriminate].
  - destruct a as [|y a]; [destruct x; discriminate|]. cbn [String.append] in E. injection E as _ E. exact (IH a E).
Qed.
Lemma opens_part r : opens_create (part_1 ++ r).
Proof. exists "create", (" table users (" ++ String newline "  id int not null, " ++ r). split; reflexivity. Qed.
Lemma noted_commented : commented bare_users noted_users.
Proof.
  assert (E3 : commented bare_users (part_1 ++ String newline (part_2 ++ String newline part_3))) by apply commented_same.
  assert (H1 : ~ hyphen_last part_1) by (apply (not_hyphen ("create table users (" ++ String newline "  id int not null,") " "); reflexivity).
  apply (commented_line _ part_1 " 'it is (a number") in E3; [|rewrite <- (sapp_nil_r part_1); apply opens_part|exact H1|reflexivity].
  set (q := part_1 ++ "--" ++ " 'it is (a number" ++ String newline part_2).
  assert (Q2 : forall x, part_1 ++ "--" ++ " 'it is (a number" ++ String newline (part_2 ++ x) = q ++ x) by (intros x; unfold q; rewrite !sapp_assoc; reflexivity).
  assert (Hq : ~ hyphen_last q).
  { replace q with ((part_1 ++ "--" ++ " 'it is (a number" ++ String newline ("  primary key (id)" ++ String newline ");" ++ String newline "insert into users (id) values (1),")) ++ String " " "") by reflexivity. apply not_hyphen. reflexivity. }
  rewrite Q2 in E3. apply (commented_line _ q " the first; and") in E3; [|apply opens_part|exact Hq|reflexivity].
  set (z := q ++ "--" ++ " the first; and" ++ String newline part_3).
  assert (Hz : ~ hyphen_last z).
  { replace z with ((q ++ "--" ++ " the first; and" ++ String newline "(2)") ++ String ";" "") by reflexivity. apply not_hyphen. reflexivity. }
  fold z in E3. apply (commented_last _ z " done") in E3; [exact E3|unfold z, q; rewrite !sapp_assoc; apply opens_part|exact Hz|reflexivity].
Qed.
Definition noted_world (s : string) : world := site_world "/srv/app/sql" ["users.sql"] [("/srv/app/sql/users.sql", s)] [].
Example ex_C115_check : let src s := [("/srv/app/sql/users.sql", s)] in
  reads_from (noted_world bare_users) "mygrate.conf" (src bare_users) /\ reads_from (noted_world noted_users) "mygrate.conf" (src noted_users)
  /\ Forall2 (fun a b => fst a <> "" /\ fst b = fst a /\ commented (snd a) (snd b)) (src bare_users) (src noted_users)
  /\ map (fun p => (fst p, map r_raw (snd p))) (rd_rows (fst (read_sql "" noted_users))) = [("users", [[[RStr "1"]; [RStr "2"]]])].
Proof.
  intros src. split; [exists "/srv/app/sql"; split; vm_compute; reflexivity|]. split; [exists "/srv/app/sql"; split; vm_compute; reflexivity|].
  split; [constructor; [split; [discriminate|split; [reflexivity|exact noted_commented]]|constructor]|]. vm_compute. reflexivity.
Qed.

(** In a file that begins with INSERT, whatever follows a comment among the rows is not read, however many
    rows and statements it holds, and nothing is reported: the table has exactly the rows before the comment. *)
Theorem C115_insert_hides : forall file n cols sp gp gs (comma : bool) sign m, table_name_ok n -> cols <> [] -> Forall column_name_ok cols ->
  gs <> [] -> Forall (group_ok (List.length cols)) gs -> (N.of_nat (List.length gs) < 1000)%N -> sign = "#" \/ sign = "--" ->
  read_sql file (insert_text n cols sp gp gs (if comma then "," else "") ++ String newline (sign ++ m))
  = (mkReader [] [(n, [mkRows n (map (map lit_value) gs) cols (List.length cols) [] []])] [] true, Ok "").
Proof.
  intros file n cols sp gp gs comma sign m Hn Hc Fc Hg Fg Lg Sg. set (s := _ ++ String newline _). set (u := normalize (sign ++ m)).
  assert (Tu : trim u = true) by apply normal_trim. destruct (normal_sign sign m Sg) as [m' Em]. fold u in Em.
  assert (Nu : u <> "") by (rewrite Em; destruct Sg as [->| ->]; discriminate).
  assert (Ta : trim (insert_text n cols sp gp gs (if comma then "," else "")) = true) by (apply text_neat; auto; destruct comma; reflexivity).
  assert (E : normalize s = insert_text n cols sp gp gs (cut_end comma u)).
  { unfold s. rewrite normal_line_after by (assumption || discriminate). fold u. unfold insert_text, cut_end. rewrite !sapp_assoc. reflexivity. }
  assert (P : forall s', normalize s' = insert_text n cols sp gp gs (cut_end comma u) ->
    insert_parse s' = Ok (Some (mkRows n (map (map lit_value) gs) cols (List.length cols) [] []), u)).
  { intros s' E'. apply (insert_cut n cols sp gp gs comma u s'); try assumption; rewrite Em; destruct Sg as [->| ->]; reflexivity. }
  pose proof E as E0. unfold insert_text in E0. apply (normal_prefix "INSERT" s (" INTO " ++ _)) in E0 as [y Y]; [|discriminate|reflexivity].
  assert (Hide : forall k q, read_loop (Datatypes.S k) file q u = (done q, Ok "")).
  { intros k q. rewrite Em in *. apply (line_hides sign m' Sg Tu). rewrite <- Em. apply normal_line. }
  Local Transparent read_sql.
  unfold read_sql. pose proof statements_enough as L. destruct max_statements as [|[|k]]; [lia|lia|]. clear L.
  Local Opaque read_sql.
  cbn [read_loop] in *. destruct (is_empty s) eqn:Q; [apply is_empty_iff in Q; unfold s, insert_text in Q; discriminate|].
  assert (H1 : statement_of (strip s) = SInsert) by (rewrite Y; reflexivity).
  assert (H2 : is_empty (strip s) = false) by (rewrite Y; reflexivity).
  rewrite H1, H2, P by (rewrite normalize_strip; exact E). rewrite Hide. reflexivity.
Qed.
Definition one_row : list (list literal) := [[LitWord "1"; LitText "Ann, B."]].
Definition row_file : string := insert_text "users" ["id"; "name"] true true one_row "," ++ String newline ("--" ++ " the second" ++ String newline "(2, 'x (y)');").
Example ex_C115_insert_hides : table_name_ok "users" /\ Forall column_name_ok ["id"; "name"] /\ Forall (group_ok 2) one_row
  /\ read_sql "" (insert_text "users" ["id"; "name"] true true one_row "," ++ String newline "(2, 'x (y)');")
     = (mkReader [] [("users", [mkRows "users" [[RStr "1"; RStr "Ann, B."]; [RStr "2"; RStr "x (y)"]] ["id"; "name"] 2 [] []])] [] true, Ok "").
Proof.
  split; [split; [discriminate|reflexivity]|]. split; [repeat constructor|]. split; [|vm_compute; reflexivity].
  repeat (apply Forall_cons || apply Forall_nil). split; [repeat (apply Forall_cons || apply Forall_nil); repeat split; try reflexivity; discriminate|split; [discriminate|reflexivity]].
Qed.
(** The rows after the comment are deleted from the server, although check finds no problem: the file has row 2. *)
Definition row_shop : world := site_world "/srv/app/sql" ["a.sql"; "rows.sql"]
  [("/srv/app/sql/a.sql", users_plain ++ " " ++ logs_plain); ("/srv/app/sql/rows.sql", row_file)] cut_server.
Theorem C115_refuted : forall FO : FloatOracle, exists w config before file a b,
  reads_from w config (before +++ [(file, a ++ "--" ++ " the second" ++ String newline b)])
  /\ map (fun p => (fst p, map r_raw (snd p))) (rd_rows (fst (read_sql file (a ++ String newline b)))) = [("users", [[[RStr "1"; RStr "Ann, B."]; [RStr "2"; RStr "x (y)"]]])]
  /\ exit_status (run_check w config) = 0 /\ run_err (run_plan w false config) = []
  /\ run_out (run_plan w false config) = [join new_line ["SET FOREIGN_KEY_CHECKS=0;"; "DELETE FROM `users` WHERE id='2';"; "DELETE FROM `users` WHERE id='3';"; "SET FOREIGN_KEY_CHECKS=1;"]].
Proof.
  intros FO. exists row_shop, "mygrate.conf", [("/srv/app/sql/a.sql", users_plain ++ " " ++ logs_plain)], "/srv/app/sql/rows.sql".
  exists (insert_text "users" ["id"; "name"] true true one_row "," ++ String newline ""), "(2, 'x (y)');".
  split; [exists "/srv/app/sql"; split; vm_compute; reflexivity|]. split; [vm_compute; reflexivity|]. split; [by_vm|]. split; by_vm.
Qed.

(** ** C116 *)

(** Full statement: two hyphens inside of quotes are text like any other.  False, see [C116_alike] and
    [C116_refuted].  Proved: for files that are one INSERT statement, whose values may hold two hyphens and any
    other comment sign, and so may the names of the columns. *)
Theorem C116_insert_partial : forall file n cols sp gp gs e a x b i j g, table_name_ok n -> cols <> [] -> Forall column_name_ok cols ->
  gs <> [] -> Forall (group_ok (List.length cols)) gs -> (N.of_nat (List.length gs) < 1000)%N -> e = "" \/ e = ";" ->
  x = "--" \/ x = "#" \/ x = "/*" -> nth_error gs i = Some g -> nth_error g j = Some (LitText (a ++ x ++ b)) ->
  exists r w row, read_sql file (insert_text n cols sp gp gs e) = (r, Ok "") /\ rd_rows r = [(n, [w])] /\ rd_errors r = [] /\ nth_error (r_raw w) i = Some row
    /\ nth_error row j = Some (RStr (a ++ x ++ b)).
Proof.
  intros file n cols sp gp gs e a x b i j g Hn Hc Fc Hg Fg Lg He Hx Hi Hj.
  assert (En : normalize (insert_text n cols sp gp gs e) = insert_text n cols sp gp gs e).
  { apply trim_normalize, text_neat; auto. destruct He as [->| ->]; reflexivity. }
  eexists. eexists. exists (map lit_value g). split; [apply (C57_insert_read_partial file n cols sp gp gs e Hn Hc Fc Hg Fg Lg He _ En)|]. split; [reflexivity|]. split; [reflexivity|].
  cbn [r_raw]. split; [apply map_nth_error, Hi|]. rewrite (map_nth_error lit_value j g Hj). cbn [lit_value].
  destruct (String.eqb_spec (a ++ x ++ b) "NULL") as [Q|]; [|reflexivity]. exfalso.
  assert (Z : has_char "-" "NULL" = true \/ has_char "#" "NULL" = true \/ has_char "*" "NULL" = true); [|destruct Z as [Z|[Z|Z]]; discriminate].
  rewrite <- Q. unfold has_char. rewrite !sexists_app. destruct Hx as [->|[->| ->]]; cbn; rewrite ?orb_true_r; auto.
Qed.
(** In a file that begins with CREATE, nothing that stands after two hyphens up to the end of the line makes a
    difference, be it inside of quotes: files with different values there are read the same. *)
Theorem C116_alike : forall file a m m' b, opens_create a -> ~ hyphen_last a -> has_char newline m = false -> has_char newline m' = false ->
  read_sql file (a ++ "--" ++ m ++ String newline b) = read_sql file (a ++ "--" ++ m' ++ String newline b).
Proof.
  intros file a m m' b O H M M'. transitivity (read_sql file (a ++ String newline b)); [|symmetry]; apply C115_create_partial, commented_line; auto; apply commented_same.
Qed.
Definition notes_create : string := "CREATE TABLE `notes` (`id` INT(10) NOT NULL, `text` VARCHAR(255) DEFAULT NULL, PRIMARY KEY (`id`))".
Definition note_start : string := notes_create ++ "; INSERT INTO `notes` (`id`, `text`) VALUES (1, 'see a".
Definition note_text (m : string) : string := note_start ++ "--" ++ m ++ String newline "and c');".
Example ex_C116_alike : opens_create note_start /\ ~ hyphen_last note_start /\ has_char newline "b, " = false /\ has_char newline "d, " = false /\ note_text "b, " <> note_text "d, ".
Proof.
  split; [exists "CREATE"; eexists; split; [reflexivity|reflexivity]|]. split; [apply (not_hyphen (notes_create ++ "; INSERT INTO `notes` (`id`, `text`) VALUES (1, 'see ") "a"); reflexivity|].
  split; [reflexivity|]. split; [reflexivity|discriminate].
Qed.
Definition dash_group : list literal := [LitWord "1"; LitText "see a--b # c"].
Example ex_C116_insert : table_name_ok "notes" /\ Forall column_name_ok ["id"; "text"] /\ Forall (group_ok 2) [dash_group]
  /\ nth_error [dash_group] 0 = Some dash_group /\ nth_error dash_group 1 = Some (LitText ("see a" ++ "--" ++ "b # c")).
Proof.
  split; [split; [discriminate|reflexivity]|]. split; [repeat constructor|]. split; [|split; reflexivity].
  repeat (apply Forall_cons || apply Forall_nil). split; [repeat (apply Forall_cons || apply Forall_nil); repeat split; try reflexivity; discriminate|split; [discriminate|reflexivity]].
Qed.
(** The server has the very text of the file, check finds no problem, and the plan overwrites the text. *)
Definition note_shop : world := site_world "/srv/app/sql" ["notes.sql"] [("/srv/app/sql/notes.sql", note_text "b, ")]
  [("SHOW TABLES", listing ["notes"]); definition "notes" notes_create; ("SELECT * FROM notes", Answer [[("id", RStr "1"); ("text", RStr ("see a" ++ "--" ++ "b, " ++ String newline "and c"))]])].
Theorem C116_refuted : forall FO : FloatOracle, exists w config file a v z,
  reads_from w config [(file, a ++ "'" ++ v ++ "'" ++ z)] /\ v = "see a--b, " ++ String newline "and c"
  /\ w_server w [] "SELECT * FROM notes" = Answer [[("id", RStr "1"); ("text", RStr v)]]
  /\ exit_status (run_check w config) = 0 /\ run_out (run_check w config) = ["No problems found"]
  /\ run_out (run_plan w false config) = [join new_line ["SET FOREIGN_KEY_CHECKS=0;"; "UPDATE `notes` SET `text`='see a and c' WHERE id='1';"; "SET FOREIGN_KEY_CHECKS=1;"]].
Proof.
  intros FO. exists note_shop, "mygrate.conf", "/srv/app/sql/notes.sql", (notes_create ++ "; INSERT INTO `notes` (`id`, `text`) VALUES (1, "), ("see a--b, " ++ String newline "and c"), ");".
  split; [exists "/srv/app/sql"; split; vm_compute; reflexivity|]. split; [reflexivity|]. split; [reflexivity|]. split; [by_vm|]. split; by_vm.
Qed.

Print Assumptions C115_create_partial.
Print Assumptions C115_check_partial.
Print Assumptions C115_insert_hides.
Print Assumptions C115_refuted.
Print Assumptions C116_insert_partial.
Print Assumptions C116_alike.
Print Assumptions C116_refuted.
