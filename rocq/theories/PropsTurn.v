(** C123: NOT NULL after AUTO_INCREMENT. *)
From Verif Require Import Samples StoredFacts RoundTrail PropsParse PropsRound PropsWrite PropsTrail.

(** Full statement: the order of NOT NULL and AUTO_INCREMENT in the definition of a column does not matter.  False: a file with
    a column without length, or with a single number as length, in which NOT NULL follows AUTO_INCREMENT, counts as if it were not there, and [check] finds no
    error in it, whatever the names, types, other definitions and layouts are. *)
Theorem C123_hidden : forall n h before ss m tick w f lu k u v after ss' opts (semi : bool) w0 w1 w2 s s',
  create_head n h -> Forall2 part_written before ss -> Forall2 part_written after ss' -> Forall plain_option opts ->
  blank w0 -> blank w1 -> w1 <> "" -> blank w2 ->
  f = NoLength \/ (exists d, f = OneNumber d /\ digits d) -> name_ok tick (m_name m) -> w <> "" /\ sforall is_word w = true -> upper w <> "FOREIGN" ->
  lu = [] \/ (exists y, lu = [IUnsigned y] /\ spelled "UNSIGNED" y) -> spelled "AUTO_INCREMENT" k -> spelled "NOT" u -> spelled "NULL" v ->
  part_written (PartColumn m) (column_definition tick (m_name m) w f (lu +++ [IAuto k])) ->
  s = h ++ " (" ++ w0 ++ join ("," ++ w1) (ss +++ column_definition tick (m_name m) w f (lu +++ [IAuto k; INotNull (u ++ " " ++ v)]) :: ss')
        ++ w2 ++ ")" ++ options_written opts ++ (if semi then ";" else "") ->
  relaid s s' ->
  (N.of_nat (List.length before + List.length after) < 998)%N -> (N.of_nat (List.length opts) < 1000)%N ->
  (forall c, In c (columns_in (before +++ [PartColumn m])) -> m_name c <> u) ->
  (exists msg, forall file, read_sql file s' = (new_reader, Raise (ValueError msg)))
  /\ forall {FO : FloatOracle} files file files', file_database (files +++ (file, s') :: files') = file_database (files +++ files').
Proof.
  intros n h before ss m tick w f lu k u v after ss' opts semi w0 w1 w2 s s' Hh F F' Fo W0 W1 W1n W2 Hsz Hn Hw Hf Hu Hk U V W Es R L Lo Np.
  apply (C100_hidden n before (PartColumn m) [mkStray u v None []] after opts semi s').
  - exists s. split; [|exact R]. rewrite Es.
    apply (trailed_as n before (PartColumn m) [mkStray u v None []] after opts semi h w0 w1 w2 ss _ ss'); try assumption.
    replace (column_definition tick (m_name m) w f (lu +++ [IAuto k; INotNull (u ++ " " ++ v)]))
      with (column_definition tick (m_name m) w f (lu +++ [IAuto k]) ++ " " ++ join " " (map stray_text [mkStray u v None []])).
    + eapply (trailed_null (PartColumn m) m tick w f lu k); first [reflexivity|assumption|constructor].
    + unfold column_definition, stray_text. cbn [map join s_word s_next s_arg s_null arg_text items_text]. rewrite !sapp_nil_r.
      assert (Ia : forall l1 l2, items_text (l1 +++ l2) = items_text l1 ++ items_text l2).
      { clear. induction l1 as [|i l1 IH]; intros l2; [reflexivity|]. cbn [List.app items_text]. rewrite IH. repeat (cbn [String.append]; rewrite ?sapp_assoc). reflexivity. }
      rewrite !Ia. cbn [items_text item_text]. rewrite ?sapp_nil_r. repeat (cbn [String.append]; rewrite ?sapp_assoc; rewrite ?sapp_nil_r). reflexivity.
  - cbn [List.length]. lia.
  - exact Lo.
  - intros c x I [= <-]. apply Np, I.
Qed.
Print Assumptions C123_hidden.

(** ** Instances *)

Definition bees_sql : string := "create table bees (id INT unsigned auto_increment NOT NULL, KEY ids (id));".
Definition bee_col : meaning := mkMeaning "id" KNumeric "INT" NoLength true true None true "" "".
Lemma bee_written : written bee_col "id INT unsigned auto_increment".
Proof.
  apply (integer_written false "id" "INT" NoLength true true true None [IUnsigned "unsigned"; IAuto "auto_increment"]).
  - apply bare_nameb. reflexivity.
  - right. reflexivity.
  - left. reflexivity.
  - exists false, [IUnsigned "unsigned"], [], [], [IAuto "auto_increment"]. repeat split; constructor; reflexivity.
  - discriminate.
Qed.
Example ex_C123_hidden : create_head "bees" "create table bees" /\ Forall2 part_written [PartKey id_key] ["KEY ids (id)"]
  /\ name_ok false (m_name bee_col) /\ part_written (PartColumn bee_col) (column_definition false (m_name bee_col) "INT" NoLength ([IUnsigned "unsigned"] +++ [IAuto "auto_increment"]))
  /\ bees_sql = "create table bees" ++ " (" ++ "" ++ join ("," ++ " ") ([] +++ column_definition false (m_name bee_col) "INT" NoLength ([IUnsigned "unsigned"] +++ [IAuto "auto_increment"; INotNull ("NOT" ++ " " ++ "NULL")]) :: ["KEY ids (id)"])
        ++ "" ++ ")" ++ options_written [] ++ ";"
  /\ relaid bees_sql bees_sql /\ forall c, In c (columns_in ([] +++ [PartColumn bee_col])) -> m_name c <> "NOT".
Proof.
  split; [apply (cats_head "bees"), clean_nameb; reflexivity|]. split; [constructor; [constructor; exact ids_written|constructor]|].
  split; [apply bare_nameb; reflexivity|]. split; [constructor; exact bee_written|]. split; [reflexivity|]. split; [apply relaid_same|].
  intros c [<-|[]]. discriminate.
Qed.
Example ex_C123_sized : digits "10" /\ part_written (PartColumn (mkMeaning "id" KNumeric "INT" (OneNumber "10") true true None true "" ""))
  (column_definition false "id" "INT" (OneNumber "10") ([IUnsigned "unsigned"] +++ [IAuto "auto_increment"])).
Proof.
  split; [split; [discriminate|reflexivity]|]. constructor. apply (integer_written false "id" "INT" (OneNumber "10") true true true None [IUnsigned "unsigned"; IAuto "auto_increment"]).
  - apply bare_nameb. reflexivity.
  - right. reflexivity.
  - right. exists "10". split; [reflexivity|split; [discriminate|reflexivity]].
  - exists false, [IUnsigned "unsigned"], [], [], [IAuto "auto_increment"]. repeat split; constructor; reflexivity.
  - discriminate.
Qed.
(** [check] accepts the file, and the table of the server is dropped; with the two attributes in the other order nothing happens. *)
Definition turn_live : string := "CREATE TABLE `bees` (
  `id` int unsigned NOT NULL AUTO_INCREMENT,
  PRIMARY KEY (`id`)
) ENGINE=InnoDB DEFAULT CHARSET=utf8".
Theorem C123_refuted : forall FO : FloatOracle, exists b live ops b',
  file_database [("bees.sql", "CREATE TABLE bees (id INT UNSIGNED AUTO_INCREMENT NOT NULL, PRIMARY KEY (id));")] = Ok b /\ snd (db_errors b) = Ok [] /\ d_tables b = []
  /\ live_database [turn_live] = Ok live
  /\ snd (build_commands false b (Ok (db_tables live)) (fun _ => Ok [])) = Ok ops
  /\ map op_str ops = ["SET FOREIGN_KEY_CHECKS=0;"; "DROP TABLE bees;"; "SET FOREIGN_KEY_CHECKS=1;"]
  /\ file_database [("bees.sql", "CREATE TABLE bees (id INT UNSIGNED NOT NULL AUTO_INCREMENT, PRIMARY KEY (id));")] = Ok b' /\ snd (db_errors b') = Ok []
  /\ snd (build_commands false b' (Ok (db_tables live)) (fun _ => Ok [])) = Ok [].
Proof.
  intros FO. found (file_database [("bees.sql", "CREATE TABLE bees (id INT UNSIGNED AUTO_INCREMENT NOT NULL, PRIMARY KEY (id));")]). found (live_database [turn_live]).
  eexists. found (file_database [("bees.sql", "CREATE TABLE bees (id INT UNSIGNED NOT NULL AUTO_INCREMENT, PRIMARY KEY (id));")]).
  split; [by_vm|]. split; [by_vm|]. split; [by_vm|]. split; [by_vm|]. split; [vm_compute; reflexivity|]. split; [vm_compute; auto|]. split; [by_vm|]. split; [by_vm|]. by_vm.
Qed.
Print Assumptions C123_refuted.
