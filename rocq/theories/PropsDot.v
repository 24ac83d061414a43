(** C122: tables that are named together with their database, as in CREATE TABLE shop.users. *)
From Verif Require Import CliFacts Samples SpecLive SpecMany SpecWrite SpecStored StoredFacts RoundRows RoundCut PropsParse PropsRound PropsWrite PropsLive PropsCli PropsMany PropsCreate PropsSeen PropsMeaning PropsDefs PropsTrail PropsTold PropsCut.

Local Opaque read_sql max_statements max_turns.

Section Dot.
  Context {FO : FloatOracle}.

  Lemma dotted q n : has_char "." (q ++ "." ++ n) = true.
  Proof. unfold has_char. induction q as [|c q IH]; [reflexivity|]. cbn [String.append sexists] in *. rewrite IH, orb_true_r. reflexivity. Qed.
  (** Full statement: [CREATE TABLE shop.users] in a file is the table [users] of the database [shop], so that nothing is dropped
      if the server has it.  False, see [C122_refuted].  If all tables of the files are named in this way, [plan] drops every
      table of the server that has no dot in its name, whatever the databases, tables, columns and layouts are. *)
  Theorem C122_dropped : forall w force config c srcs ls quiet Ts text rows,
    reads_from w config srcs -> Forall2 (fun src l => source_holds l (snd src)) srcs ls -> consistent (concat ls) -> exit_status (run_check w config) = 0 ->
    (forall T, In T (tables_in (concat ls)) -> exists q n, tm_name T = q ++ "." ++ n) ->
    driver_credentials (w_loads w) (w_file w) (w_cwd w) (Some config) = Ok c ->
    serves w c (map tm_name Ts) text rows -> (forall T, In T Ts -> text (tm_name T) = show_create quiet T) -> Forall plain_table Ts -> NoDup (map tm_name Ts) ->
    run_end (run_plan w force config) = Exited true ->
    exists ops, run_out (run_plan w force config) = concat (map source_notice srcs) +++ [join new_line (map op_str ops)]
      /\ forall T, In T Ts -> has_char "." (tm_name T) = false -> In (ODropTable (tm_name T)) ops.
  Proof.
    intros w force config c srcs ls quiet Ts text rows R F Co Ck Q C Sv Tx P N Ex.
    assert (F' : Forall2 says srcs ls) by (clear -F; induction F as [|src l srcs ls H F IH]; constructor; [left; exact H|exact IH]).
    destruct (C103_dropped_partial w force config c srcs ls quiet Ts text rows R F' Co Ck C Sv Tx P N Ex) as (ops & O & D). exists ops. split; [exact O|].
    intros T I H. apply D. split; [apply in_map, I|]. intros J. apply in_map_iff in J as (T' & E & J). destruct (Q T' J) as (q & n & Eq).
    rewrite <- E, Eq, dotted in H. discriminate H.
  Qed.
End Dot.

(** ** Instances *)

Definition dot_meaning : tmeaning :=
  mkTMeaning "shop.logs" [mkMeaning "id" KNumeric "INT" NoLength true false None true "" ""] [primary_key ["id"]] [] [].
Definition dot_text : string := "CREATE TABLE shop.logs" ++ " (" ++ "" ++ join ("," ++ " ") ["id INT unsigned not null auto_increment"; "primary key (id)"] ++ "" ++ ")" ++ options_written [] ++ ";".
Lemma dot_written : create_written dot_meaning true dot_text.
Proof.
  apply (create_as dot_meaning true "CREATE TABLE shop.logs" "" " " ""
           [PartColumn (mkMeaning "id" KNumeric "INT" NoLength true false None true "" ""); PartKey (primary_key ["id"])]
           ["id INT unsigned not null auto_increment"; "primary key (id)"]); try reflexivity; try discriminate.
  - constructor; try (cbn; lia); repeat constructor; cbn; intuition discriminate.
  - apply (head_as "shop.logs" "CREATE TABLE" "" false); [reflexivity|left; reflexivity|apply clean_nameb; reflexivity].
  - repeat (apply Forall2_cons || apply Forall2_nil).
    + apply part_column. apply (integer_written false "id" "INT" NoLength true false true None [IUnsigned "unsigned"; INotNull "not null"; IAuto "auto_increment"]).
      * apply bare_nameb. reflexivity.
      * right. reflexivity.
      * left. reflexivity.
      * exists false, [IUnsigned "unsigned"], [INotNull "not null"], [], [IAuto "auto_increment"]. repeat split; constructor; reflexivity.
      * discriminate.
    + apply part_key. apply (written_key (primary_key ["id"]) "primary key" true false [(false, "id")]); [reflexivity|discriminate|repeat constructor; apply (written_ident "id"); reflexivity|].
      constructor; reflexivity.
  - constructor.
Qed.
Definition dot_server : dict string answer :=
  [("SHOW TABLES", listing ["logs"]); definition "logs" (show_create (fun _ => (true, true)) logs_meaning); ("SELECT * FROM logs", Answer (sync_rows "logs"))].
Definition dot_shop : world := site_world "/srv/app/sql" ["all.sql"] [("/srv/app/sql/all.sql", dot_text)] dot_server.
Lemma dot_holds : source_holds [StTable dot_meaning] dot_text.
Proof. split; [cbn; lia|]. exists dot_text. split; [|apply laid_same]. apply statements_one. constructor; [exact dot_written|reflexivity]. Qed.
Example ex_C122_dropped : let Ts := [logs_meaning] in
  reads_from dot_shop "mygrate.conf" [("/srv/app/sql/all.sql", dot_text)]
  /\ Forall2 (fun src l => source_holds l (snd src)) [("/srv/app/sql/all.sql", dot_text)] [[StTable dot_meaning]] /\ consistent (concat [[StTable dot_meaning]])
  /\ exit_status (run_check dot_shop "mygrate.conf") = 0
  /\ (forall T, In T (tables_in (concat [[StTable dot_meaning]])) -> exists q n, tm_name T = q ++ "." ++ n)
  /\ driver_credentials (w_loads dot_shop) (w_file dot_shop) (w_cwd dot_shop) (Some "mygrate.conf") = Ok site_creds
  /\ serves dot_shop site_creds (map tm_name Ts) sync_text (fun n => if String.eqb n "logs" then Ok (sync_rows n) else Ok [])
  /\ (forall T, In T Ts -> sync_text (tm_name T) = show_create (fun _ => (true, true)) T) /\ Forall plain_table Ts /\ NoDup (map tm_name Ts)
  /\ run_end (run_plan dot_shop false "mygrate.conf") = Exited true.
Proof.
  intros Ts. split; [exists "/srv/app/sql"; split; vm_compute; reflexivity|]. split; [constructor; [exact dot_holds|constructor]|]. split; [constructor|].
  - repeat constructor; cbn; intuition discriminate.
  - intros n cols gs I. cbn in I. repeat destruct I as [I|I]; try contradiction; discriminate.
  - intros n. split; constructor.
  - split; [vm_compute; reflexivity|]. split; [intros T [<-|[]]; exists "shop", "logs"; reflexivity|]. split; [vm_compute; reflexivity|]. split; [|split; [intros T [<-|[]]; reflexivity|]].
    + constructor; [reflexivity| | |].
      * intros qs _. eexists. split; reflexivity.
      * intros qs n _ [<-|[]]; eexists _, _, _; repeat split.
      * intros qs n _. destruct (String.eqb_spec n "logs") as [->|N']; [reflexivity|].
        cbn [w_server dot_shop site_world]. unfold answers. replace (dget ("SELECT * FROM " ++ n) _) with (@None answer); [reflexivity|]. cbn.
        destruct (String.eqb_spec n "logs"); [contradiction|reflexivity].
    + destruct ex_C75_nothing_to_do as (_ & P & N & _). split; [inversion P; assumption|]. split; [inversion N; assumption|]. by_vm.
Qed.
(** The file defines the table of the server; [check] is content, and the table is dropped with its rows.  In the place of it
    a table is made whose name is [shop.logs]. *)
Theorem C122_refuted : forall FO : FloatOracle, exists w config file s,
  reads_from w config [(file, s)] /\ s = "CREATE TABLE shop.logs (id INT unsigned not null auto_increment, primary key (id));"
  /\ exit_status (run_check w config) = 0 /\ run_err (run_plan w false config) = []
  /\ run_out (run_plan w false config) = [join new_line ["SET FOREIGN_KEY_CHECKS=0;"; "CREATE TABLE `shop.logs` (`id` INT UNSIGNED NOT NULL AUTO_INCREMENT,"; "PRIMARY KEY (`id`));";
       "DROP TABLE logs;"; "SET FOREIGN_KEY_CHECKS=1;"]].
Proof.
  intros FO. exists dot_shop, "mygrate.conf", "/srv/app/sql/all.sql", dot_text. split; [exists "/srv/app/sql"; split; vm_compute; reflexivity|]. split; [reflexivity|].
  split; [by_vm|]. split; [by_vm|]. by_vm.
Qed.
Print Assumptions C122_dropped.
Print Assumptions C122_refuted.
