(** C111: what is remarked about the quotes around a default. *)
From Verif Require Import Cli SpecNote RoundRead EnumFacts Samples PropsParse PropsRound PropsWrite PropsCli PropsWarn PropsEnum.

Local Opaque max_turns max_statements.

(** Every definition of C54 is read with exactly the remark of [default_remark], before a comma and before
    the closing parenthesis.  The check command prints the remarks of all columns (see C96). *)
Theorem C111_remarks_exact : forall m s remarks, remarked m s remarks -> read_column s (fun c => c_pwarnings c = remarks).
Proof.
  intros m s ws R. split.
  - intros next T N. destruct (remarked_read m s ws (EComma next) R (conj (normal_trim _ T) N)) as (p & c & B & A & H). exists p, c. tauto.
  - destruct (remarked_read m s ws (EClose false "") R eq_refl) as (p & c & B & A & H). exists p, c. tauto.
Qed.
(** These are all definitions of C54. *)
Theorem C111_covers : forall m s, written m s <-> exists remarks, remarked m s remarks.
Proof. intros m s. split; [apply written_remarked|]. intros [ws R]. exact (remarked_written m s ws R). Qed.
(** The same for the definitions of C56. *)
Theorem C111_enum_exact : forall m s remarks, enum_remarked m s remarks -> read_column s (fun c => c_pwarnings c = remarks).
Proof.
  intros m s ws R. split.
  - intros next T N. destruct (enum_remarked_read m s ws (EComma next) R (conj (normal_trim _ T) N)) as (p & c & B & A & H). exists p, c. tauto.
  - destruct (enum_remarked_read m s ws (EClose false "") R eq_refl) as (p & c & B & A & H). exists p, c. tauto.
Qed.

(** Full statement: the default of a column is remarked on if and only if it is a text without quotes in a
    column for texts, or stands between quotes in a column for numbers.  False, see [C111_refuted],
    [C111_refuted_needless] and [C111_refuted_missing]; proved for columns for texts with a length. *)
Theorem C111_text_partial : forall tick n w k T l nu ln ld lcs lco server cs co d,
  let s := column_definition tick n w (OneNumber l) (arranged server [] ln ld [] lcs lco) in
  nameable tick n (OneNumber l) (arranged server [] ln ld [] lcs lco) -> In (T, KString) readable_types -> spelled T w -> digits l ->
  nullness nu ln -> argument ICharset "CHARACTER SET" cs lcs -> argument ICollate "COLLATE" co lco -> defaults d ld ->
  (* no default, a default between quotes, NULL, or a number: nothing *)
  (ld = [] \/ (exists x, ld = [IQuoted k x]) \/ (exists x, ld = [IDefault k x] /\ (spelled "NULL" x \/ digits x)) ->
     read_column s (fun c => c_pwarnings c = []))
  (* anything else without quotes *)
  /\ (forall x, ld = [IDefault k x] -> ~ spelled "NULL" x -> ~ digits x ->
     read_column s (fun c => c_pwarnings c = ["Default value of """ ++ x ++ """ should have quotes for field " ++ n])).
Proof.
  intros tick n w k T l nu ln ld lcs lco server cs co d s Hn Ht Hw Hl Fn Hcs Hco D.
  assert (Bw : boolean w = false).
  { unfold boolean. rewrite (upper_caseless _ _ Hw). clear - Ht. cbn in Ht.
    repeat (destruct Ht as [Ht|Ht]; [first [discriminate Ht|injection Ht as <-; reflexivity]|]). destruct Ht. }
  assert (R : remarked (mkMeaning n KString T (OneNumber l) false nu d false (upper cs) (upper co)) s (remark_on (missing_unless_number n) nothing_at_all ld)).
  { apply (remarked_as (mkMeaning n KString T (OneNumber l) false nu d false (upper cs) (upper co)) tick w (OneNumber l) server [] ln ld [] lcs lco d cs co);
      cbn [m_name m_kind m_type m_length m_unsigned m_null m_default m_auto m_charset m_collate]; auto; try (constructor; assumption); try constructor.
    symmetry. apply default_same, Bw. }
  apply C111_remarks_exact in R. split.
  - intros H. enough (E : remark_on (missing_unless_number n) nothing_at_all ld = []) by (rewrite E in R; exact R).
    destruct H as [->|[[x ->]|(x & -> & [N|[Nx Dx]])]]; [reflexivity|reflexivity| |]; cbn [remark_on].
    + unfold spelled in N. rewrite N. reflexivity.
    + destruct (String.eqb (lower x) "null"); [reflexivity|]. unfold missing_unless_number, whole_number. rewrite Dx. destruct x; [contradiction|reflexivity].
  - intros x -> N Dx. enough (E : remark_on (missing_unless_number n) nothing_at_all [IDefault k x] = [quotes_missing n x]) by (rewrite E in R; exact R).
    cbn [remark_on]. destruct (String.eqb_spec (lower x) "null") as [E|_]; [contradiction|]. unfold missing_unless_number, whole_number.
    destruct x as [|c x]; [reflexivity|]. destruct (sforall is_digit (String c x)) eqn:E; [|reflexivity]. exfalso. apply Dx. split; [discriminate|exact E].
Qed.

(** ** Instances *)

Definition colour : meaning := mkMeaning "colour" KString "VARCHAR" (OneNumber "20") false false (Some "red") false "" "".
Example ex_C111 : remarked colour "colour varchar(20) NOT NULL DEFAULT red" ["Default value of ""red"" should have quotes for field colour"]
  /\ remarked colour "`colour` VARCHAR(20) NOT NULL default 'red'" [].
Proof.
  split.
  - apply (remarked_as colour false "varchar" (OneNumber "20") false [] [INotNull "NOT NULL"] [IDefault "DEFAULT" "red"] [] [] [] (Some "red") "" "").
    { apply named_column, bare_nameb. reflexivity. }
    { cbn. tauto. }
    { constructor. reflexivity. }
    { split; [discriminate|reflexivity]. }
    { constructor. }
    { constructor. reflexivity. }
    { constructor; [reflexivity| |discriminate]. split; [discriminate|split; [apply clean_textb; reflexivity|discriminate]]. }
    { reflexivity. }
    { constructor. }
    { constructor. }
    { reflexivity. }
    { constructor. }
    { reflexivity. }
    { intros [N|N]; contradiction. }
    exact Logic.I.
  - apply (remarked_as colour true "VARCHAR" (OneNumber "20") false [] [INotNull "NOT NULL"] [IQuoted "default" "red"] [] [] [] (Some "red") "" "").
    { split; [apply clean_nameb; reflexivity|discriminate]. }
    { cbn. tauto. }
    { constructor. reflexivity. }
    { split; [discriminate|reflexivity]. }
    { constructor. }
    { constructor. reflexivity. }
    { constructor; [reflexivity|]. apply clean_textb. reflexivity. }
    { reflexivity. }
    { constructor. }
    { constructor. }
    { reflexivity. }
    { constructor. }
    { reflexivity. }
    { intros [N|N]; contradiction. }
    exact Logic.I.
Qed.
Definition size_enum : enum_meaning := mkEnum "size" "ENUM" ["1"; "2"] true (Some "1") "" "".
Example ex_C111_enum : enum_remarked size_enum "size ENUM('1', '2') DEFAULT 1" ["Default value of ""1"" should have quotes for field size"].
Proof.
  apply (enum_remarked_as size_enum false "ENUM" true [] [IDefault "DEFAULT" "1"] [] [] "" "").
  - apply bare_nameb. reflexivity.
  - left. reflexivity.
  - reflexivity.
  - discriminate.
  - repeat (constructor; [split; reflexivity|]). constructor.
  - constructor.
  - constructor; [reflexivity| |discriminate]. split; [discriminate|split; [apply clean_textb; reflexivity|discriminate]].
  - constructor.
  - reflexivity.
  - constructor.
  - reflexivity.
Qed.

(** A number that is not a whole number, or not positive, is said to lack quotes. *)
Definition noted_site (s : string) : world := site_world "/srv/app/sql" ["t.sql"] [("/srv/app/sql/t.sql", s)] [].
Theorem C111_refuted : forall FO : FloatOracle, exists w config,
  w = noted_site "CREATE TABLE `t` (`id` INT(10) NOT NULL, `level` INT(11) NOT NULL DEFAULT -1, PRIMARY KEY (`id`));"
  /\ run_out (run_check w config) = printed_block "Warnings found in *.sql files:" ["Default value of ""-1"" should have quotes for field level in table 't'"].
Proof. intros FO. eexists. exists "mygrate.conf". split; [reflexivity|]. by_vm. Qed.
(** Servers put every default between quotes, and so does the tool itself around all but digits: said to be
    wrong in a column with two numbers, and in no other. *)
Theorem C111_refuted_needless : forall FO : FloatOracle, exists w config,
  w = noted_site "CREATE TABLE `t` (`id` INT(10) NOT NULL, `price` DECIMAL(10,2) NOT NULL DEFAULT '5', `number` INT(11) NOT NULL DEFAULT '5', PRIMARY KEY (`id`));"
  /\ run_out (run_check w config) = printed_block "Warnings found in *.sql files:" ["Column 'price' has a numeric type but its default value is a string in table 't'"].
Proof. intros FO. eexists. exists "mygrate.conf". split; [reflexivity|]. by_vm. Qed.
(** A text without quotes passes in a column without a length. *)
Theorem C111_refuted_missing : forall FO : FloatOracle, exists w config,
  w = noted_site "CREATE TABLE `t` (`id` INT(10) NOT NULL, `grade` CHAR NOT NULL DEFAULT a, PRIMARY KEY (`id`));"
  /\ run_out (run_check w config) = ["No problems found"].
Proof. intros FO. eexists. exists "mygrate.conf". split; [reflexivity|]. by_vm. Qed.

Print Assumptions C111_remarks_exact.
Print Assumptions C111_covers.
Print Assumptions C111_enum_exact.
Print Assumptions C111_text_partial.
Print Assumptions C111_refuted.
Print Assumptions C111_refuted_needless.
Print Assumptions C111_refuted_missing.
